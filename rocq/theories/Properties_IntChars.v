(* C42, C39: the width announced by a printed integer is the number of characters printed, and is at least the width asked. *)
From Verif Require Import Base WidthModel WidthProofs DestModel DestProofs GroupSpec GroupModel GroupProofs GroupDist
  DigitsSpec DigitsModel DigitsCount DigitsProofs UtfSpec UtfForms CharsetModel IntSpec IntModel IntProofs Properties_Int IntChars.
Local Open Scope Z_scope.

Lemma base_range f : 2 <= o_base (opts_of f) <= 16.
Proof. destruct f as [|b ? ?|b ? ? ? ? ?|n ? ? ? ? ?]; cbn [opts_of o_base]; try lia; [destruct b|destruct b|destruct (dyn_base n)]; cbn [bval]; lia. Qed.
Lemma request_magnitude F gs rep f al sgn s v : 0 <= magnitude (request_of F gs rep f al sgn s v).
Proof.
  unfold magnitude, request_of, request. cbn [rq_base rq_value rq_bits]. destruct (_ =? 10); [lia|]. apply Z.mod_pos_bound. destruct s; reflexivity.
Qed.

(* the text of the integer is the encoding of exactly as many characters as the width says *)
Theorem C42_integer_characters : forall F gs rep f al sgn s v,
  facets_ok F gs rep -> in_int sgn (sbits s) v -> align_ok (align_of al) -> opts_ok (opts_of f) ->
  sep_ok F f (request_of F gs rep f al sgn s v) ->
  exists p chars, int_print F f al sgn s v = Some p /\
    ops_text (pr_ops p) = flat_map (cs_encode (if_cs F)) chars /\ pr_size p = zlen (ops_text (pr_ops p)) /\
    pr_width p = zlen chars /\ w_round (al_width (align_of al)) <= zlen chars.
Proof.
  intros F gs rep f al sgn s v H1 H2 H3 H4 H5. destruct (int_print_ok F gs rep f al sgn s v H1 H2 H3 H4 H5) as (p & E & (T & S & W) & _).
  set (r := request_of F gs rep f al sgn s v) in *. pose proof (ok_ascii _ (fk_cs _ _ _ H1)) as HA.
  exists p, (int_text (in_chars r (al_fill (align_of al)) [if_sep F (fmt_base f)])). split; [exact E|].
  assert (HB : 2 <= rq_base r <= 16) by (unfold r, request_of, request; cbn [rq_base]; apply base_range).
  pose proof (chars_len r (al_fill (align_of al)) [if_sep F (fmt_base f)] HB) as HL. change (zlen [if_sep F (fmt_base f)]) with 1 in HL.
  split; [|rewrite T; split; [exact S|]; split; [rewrite W; lia|]].
  - rewrite T. apply text_chars; [exact HA|exact HB|apply request_magnitude|reflexivity|]. cbn [flat_map]. rewrite app_nil_r. reflexivity.
  - rewrite HL. unfold int_text_width, int_missing. change (rq_width r) with (w_round (al_width (align_of al))). lia.
Qed.
Lemma silent_same r : int_text_width (silent_sep r) = int_text_width r /\ n_seps (silent_sep r) = n_seps r /\ magnitude (silent_sep r) = magnitude r.
Proof.
  unfold int_text_width, int_missing, int_content_width, int_zeros, int_prefix_width, int_prefix, n_seps, n_digits, mag_digits, magnitude.
  cbn [silent_sep rq_signed rq_bits rq_value rq_base rq_precision rq_pad0 rq_sign rq_showbase rq_case rq_sep rq_boundary rq_fill rq_width rq_align].
  split; [reflexivity|]. split; reflexivity.
Qed.
Lemma eq_via_len (a w l n : Z) : a = w -> l = w - n * (1 - 0) -> a = l + n.
Proof. lia. Qed.
(* with a separator the charset cannot encode the width counts the separators, which are not printed:
   exactly that many characters are missing, at least one *)
Theorem C42_width_exact_partial : forall F gs rep f al sgn s v,
  facets_ok F gs rep -> in_int sgn (sbits s) v -> align_ok (align_of al) -> opts_ok (opts_of f) ->
  let r := request_of F gs rep f al sgn s v in
  ~ sep_ok F f r ->
  exists p chars, int_print F f al sgn s v = Some p /\ ops_text (pr_ops p) = flat_map (cs_encode (if_cs F)) chars /\ pr_size p = zlen (ops_text (pr_ops p)) /\ pr_width p = zlen chars + n_seps r /\ 0 < n_seps r.
Proof.
  intros F gs rep f al sgn s v H1 H2 H3 H4 r H5. destruct (int_print_bad_sep F gs rep f al sgn s v H1 H2 H3 H4 H5) as (p & E & (T & S & W) & _). fold r in T, S, W.
  pose proof (ok_ascii _ (fk_cs _ _ _ H1)) as HA. assert (HB : 2 <= rq_base r <= 16) by apply base_range.
  exists p, (int_text (in_chars (silent_sep r) (al_fill (align_of al)) [])). split; [exact E|].
  pose proof (chars_len (silent_sep r) (al_fill (align_of al)) [] HB) as HL. change (zlen []) with 0 in HL.
  destruct (silent_same r) as (E1 & E2 & E3). rewrite E1, E2 in HL. rewrite E1 in W.
  split; [|rewrite T; split; [exact S|]; split; [eapply eq_via_len; [exact W|exact HL]|]].
  - rewrite T. refine (text_chars (cs_encode (if_cs F)) HA (silent_sep r) (al_fill (align_of al)) [] HB _ eq_refl eq_refl). pose proof (request_magnitude F gs rep f al sgn s v) as HM. fold r in HM. rewrite E3. exact HM.
  - assert (0 <= n_seps r) by (unfold n_seps; apply below_le). assert (n_seps r <> 0) by (intros E0; apply H5; right; right; exact E0). lia.
Qed.

(* 12,345 with a grinning face as fill, a thousands separator, eight columns of zeros and twelve columns *)
Example C42_integer_characters_ex :
  let f := FStatic B10 true 0 8 PositiveAlso false in let al := Some (mk_align 0x1F600 (12 * 65536) ARight) in
  sep_ok F8 f (request_of F8 gs8 rep8 f al true S4 12345) /\
  option_map (fun p => (pr_width p, ops_text (pr_ops p))) (int_print F8 f al true S4 12345) =
    Some (12, flat_map (cs_encode (if_cs F8)) [0x1F600; 0x1F600; 0x1F600; 0x1F600; 43; 48; 49; 50; 44; 51; 52; 53]).
Proof. split; [left; reflexivity|vm_compute; reflexivity]. Qed.
Example C42_width_exact_ex : let f := FStatic B10 true 0 0 NegativeOnly false in let al := Some (mk_align 42 (10 * 65536) ARight) in
  let r := request_of F8bad (fun _ => [3]) (fun _ => true) f al true S4 1234567 in
  ~ sep_ok F8bad f r /\ n_seps r = 2 /\ option_map (fun p => (pr_width p, zlen (ops_text (pr_ops p)))) (int_print F8bad f al true S4 1234567) = Some (10, 8).
Proof. split; [exact (proj1 C39_invalid_separator_ex)|]. split; vm_compute; reflexivity. Qed.

Print Assumptions C42_integer_characters.
Print Assumptions C42_width_exact_partial.
