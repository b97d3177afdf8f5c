(* C40, exactly: when the two formats that do not reserve their space write outside the destination's buffer.

   [d_space ops st] is the room left in the buffer; [no_room_fails ops]: a store beyond it is a fault.  Each
   destination of the library is strict in this sense. *)
From Verif Require Import Base WidthModel WidthProofs DestModel DestProofs GroupSpec GroupModel GroupProofs GroupDist
  DigitsSpec DigitsModel DigitsCount DigitsProofs UtfSpec UtfForms CharsetModel IntSpec IntModel IntProofs IntOverflow RoomProofs RoomModest Properties_Int.

Theorem C40_strict : no_room_fails cstr_ops /\ no_room_fails disc_ops /\ no_room_fails sapp_ops /\ no_room_fails smak_ops /\
  no_room_fails szmk_ops /\ no_room_fails cf_ops /\ no_room_fails sb_ops.
Proof. exact (conj cstr_strict (conj disc_strict (conj sapp_strict (conj smak_strict (conj szmk_strict (conj cf_strict sb_strict)))))). Qed.

(* unaligned decimal with a sign option only: it fails exactly when the buffer is neither full nor large enough *)
Theorem C40_sign_only_exact_partial : forall F gs rep sg sb sgn s v, facets_ok F gs rep -> in_int sgn (sbits s) v ->
  let f := FNoPad B10 sg sb in
  let text := int_text (request_of F gs rep f None sgn s v) in
  exists p, int_print F f None sgn s v = Some p /\
    forall S (ops : dest_ops S) R, full_laws ops R -> no_room_fails ops -> forall st t, R st t ->
      (d_space ops st = 0 \/ length text <= d_space ops st -> exists st', run ops st (pr_ops p) = Some st' /\ R st' (t ++ text))%nat /\
      (0 < d_space ops st < length text -> run ops st (pr_ops p) = None)%nat.
Proof.
  intros F gs rep sg sb sgn s v HF Hv f text.
  assert (HO : opts_ok (opts_of f)) by (split; cbn; lia).
  destruct (C39_integer_text F gs rep f None sgn s v HF Hv default_align_ok HO) as (p & E & T).
  { right. right. apply below_none. intros i _. unfold f. reflexivity. }
  exists p. split; [exact E|]. intros S ops R L N st t HR. fold text in T.
  pose proof (sign_only_ops (if_clz F) (if_case F) sg sb sgn s v p Hv E) as SH. rewrite T in SH. rewrite SH.
  apply reserve_one; try assumption. clear - HF Hv T E SH. pose proof (sign_only_length (if_clz F) (if_case F) sg sb sgn s v p Hv E) as LN. rewrite T in LN. exact LN.
Qed.
(* base 2 with separators of one unit: the operations before the first group of digits are safe, and then it fails
   exactly when the group does not fit *)
Theorem C40_binary_grouped_exact_partial : forall F gs rep f al sgn s v, facets_ok F gs rep -> in_int sgn (sbits s) v -> align_ok (align_of al) -> opts_ok (opts_of f) ->
  fmt_base f = B2 -> o_punct (opts_of f) = true ->
  let r := request_of F gs rep f al sgn s v in
  (if_sep F B2 < 0x80 \/ cs_validate (if_cs F) (if_sep F B2) <> -1) -> zlen (rq_sep r) = 1 -> n_seps r <> 0 ->
  exists p before first rest, int_print F f al sgn s v = Some p /\ pr_ops p = before ++ OReserve 0 first :: rest /\ (1 <= length first <= 64)%nat /\
    forall S (ops : dest_ops S) R, full_laws ops R -> no_room_fails ops -> forall st t, R st t ->
      exists st1, run ops st before = Some st1 /\ R st1 (t ++ ops_text before) /\
      (length first <= d_space ops st1 -> exists st', run ops st (pr_ops p) = Some st' /\ R st' (t ++ int_text r))%nat /\
      (d_space ops st1 < length first -> run ops st (pr_ops p) = None)%nat.
Proof.
  intros F gs rep f al sgn s v HF Hv Hal HO Eb Hpu r Hsep H1 Hn.
  pose proof (binary_int_shape F gs rep f al sgn s v HF Hv Hal HO Eb Hpu Hsep H1 Hn) as SH.
  destruct SH as (p & before & first & rest & E & EO & W1 & W2 & LF & T). exists p, before, first, rest. split; [exact E|]. split; [exact EO|]. split; [exact LF|].
  intros S ops R L N st t HR. fold r in T. rewrite <- T, EO. exact (unreserved ops R before first rest st t L N W1 W2 (proj1 LF) HR).
Qed.

(* +dec(1000000), 8 units, after 60, 64 and 56 others in to_string's buffer of 64 *)
Example C40_sign_only_ex : exists p, int_print F8 (FNoPad B10 PositiveAlso false) None true S4 1000000 = Some p /\
  run smak_ops smak_init (OFill 60 45 :: pr_ops p) = None /\ run smak_ops smak_init (OFill 64 45 :: pr_ops p) <> None /\ run smak_ops smak_init (OFill 56 45 :: pr_ops p) <> None.
Proof. eexists. split; [vm_compute; reflexivity|]. repeat split; vm_compute; congruence. Qed.
Example C40_binary_grouped_ex : let f := FStatic B2 true 0 0 NegativeOnly false in let r := request_of F8 gs8 rep8 f None true S4 7340032 in
  fmt_base f = B2 /\ o_punct (opts_of f) = true /\ if_sep F8 B2 < 0x80 /\ zlen (rq_sep r) = 1 /\ n_seps r <> 0.
Proof. cbv zeta. repeat split; vm_compute; congruence. Qed.

Print Assumptions C40_strict.
Print Assumptions C40_sign_only_exact_partial.
Print Assumptions C40_binary_grouped_exact_partial.
