(* C75: what the error notifier is told while a text is printed. *)
From Verif Require Import Base DestModel DestProofs UtfSpec UtfModel UtfForms UtfLoop UtfDecode UtfTheorems TransSpec SbcsTables SbcsModel SbcsProofs
  PivotModel PivotProofs CsetModel CsetProofs Properties_Pivot PrintModel NoteModel NoteSpec NoteProofs.

(* A text can always be read, in exactly the sense used below. *)
Theorem C75_reads_exists : forall a lax src, is_cset a -> unit_text a src -> exists rs, reads a lax src rs.
Proof.
  intros [f|i cs] lax src HA HU; cbn [reads]; [|eexists; reflexivity].
  destruct (items_exist_of f lax src HU) as [its HI]. eexists. exists its. split; [exact HI|reflexivity].
Qed.
(* What should be reported is what the text says, but for one misreading of UTF-32 (misread, in NoteSpec).
   Into any destination, from any state of it, whether or not a direct transcoder exists: the notifier is told of the
   invalid pieces in order, each once or twice in a row; and likewise of the code points that the destination's charset
   lacks.  Of all of them, unless the destination failed, and then of the first ones. *)
Theorem C75_notifications : forall S (ops : dest_ops S) R pre, dest_laws ops R pre ->
  forall a b fl src rs s t, is_cset a -> is_cset b -> unit_text a src -> no_stop fl -> reads a (f_lax fl) src rs -> R s t ->
  let rs' := map (misread a b (f_lax fl)) rs in
  exists s' r n, transcode_into_n ops a b fl s src = Some (s', r, n) /\
    exists told_i left_i told_u left_u,
      invalid_only (reports (can_encode b) rs') = told_i ++ left_i /\ once_or_twice told_i (invalid_only n) /\
      unsupported_only (reports (can_encode b) rs') = told_u ++ left_u /\ once_or_twice told_u (unsupported_only n) /\
      (ds_reason r = RCompleted /\ left_i = [] /\ left_u = [] \/ ds_reason r = RInsufficient /\ d_good ops s' = false).
Proof.
  intros S ops R pre L a b fl src rs s t HA HB HU HN HRd HR rs'. unfold transcode_into_n. subst rs'. destruct (direct a b) as [func|] eqn:ED.
  - destruct (direct_reports a b func fl src rs HA HB ED HU HN HRd) as (l & Hl & HL & HS & HNs & HE).
    destruct (dest_notes ops R pre L (func fl) (Datatypes.S (Datatypes.S (length src))) l s t HS HNs HR ltac:(lia))
      as (s' & z & n & E & p & q & H1 & H2 & H3).
    rewrite Hl in E. rewrite E. cbn [obind fst snd]. rewrite <- HE, H1. eexists _, _, _. split; [reflexivity|].
    exists (invalid_only p), (invalid_only q), (unsupported_only p), (unsupported_only q). unfold invalid_only, unsupported_only.
    rewrite !filter_app. split; [reflexivity|]. split; [apply oot_filter; exact H2|]. split; [reflexivity|]. split; [apply oot_filter; exact H2|].
    cbn [ds_reason]. destruct H3 as [[H3 ->]|H3]; auto.
  - rewrite misread_id by (intros -> (i & cs & ->) _; discriminate ED).
    destruct (decoding_reports a fl src rs HA HU HN HRd) as (l & Hl & HL & HD & HNs & HE & HO).
    assert (HP : Forall (fun r => match snd r with Some c => 0 <= c | None => True end) rs).
    { pose proof (decoding_outs _ _ (proj2 HD)) as [X _]. rewrite HO in X. clear -X. induction rs as [|[u o] rs IH]; [constructor|]. cbn [map snd] in X.
      inversion X as [|y z [Hy _] Hz]; subst. constructor; [destruct o; cbn [snd]; [lia|exact I]|apply IH; exact Hz]. }
    destruct (de_dest_notes ops R pre L _ _ _ _ (Datatypes.S (length src)) l s t (cset_encoding b fl HB) (enc_step_len b fl) HD HNs
      (enc_step_nostop b fl (outs l) HN) HR ltac:(lia)) as (s' & z & n & E & pi & qi & pu & qu & I1 & I2 & I3 & I4 & I5).
    rewrite Hl in E. exists s', z, n. split; [exact E|]. exists pi, qi, pu, qu.
    rewrite (invalid_reports (can_encode b)), <- HE, I1. split; [reflexivity|]. rewrite <- is_invalid_only, <- (is_unsupported_only n). split; [exact I3|].
    rewrite <- (enc_reports b fl (can_encode b) rs HB eq_refl HP), <- HO, I2. auto.
Qed.
(* misread changes nothing unless the text is UTF-32, surrogates are not allowed, and a code point of 0xE000..0xFFFF is
   lacked by a single-byte charset; it never changes how the text is cut *)
Theorem C75_misread_none : forall a b lax rs,
  (a = Utf U32 -> (exists i cs, b = Sb i cs) -> lax = false ->
     Forall (fun r => match snd r with Some c => 0xE000 <= c <= 0xFFFF -> can_encode b c = true | None => True end) rs) ->
  map (misread a b lax) rs = rs.
Proof. exact misread_id. Qed.
(* When there is a direct transcoder, the two kinds of reports are in the order of the text as well *)
Theorem C75_direct_order : forall S (ops : dest_ops S) R pre, dest_laws ops R pre ->
  forall a b fl src rs s t, is_cset a -> is_cset b -> direct a b <> None -> unit_text a src -> no_stop fl -> reads a (f_lax fl) src rs -> R s t ->
  exists s' r n, transcode_into_n ops a b fl s src = Some (s', r, n) /\
    exists told left, reports (can_encode b) (map (misread a b (f_lax fl)) rs) = told ++ left /\ once_or_twice told n /\
      (ds_reason r = RCompleted /\ left = [] \/ ds_reason r = RInsufficient /\ d_good ops s' = false).
Proof.
  intros S ops R pre L a b fl src rs s t HA HB HD HU HN HRd HR. unfold transcode_into_n. destruct (direct a b) as [func|] eqn:ED; [|congruence].
  destruct (direct_reports a b func fl src rs HA HB ED HU HN HRd) as (l & Hl & HL & HS & HNs & HE).
  destruct (dest_notes ops R pre L (func fl) (Datatypes.S (Datatypes.S (length src))) l s t HS HNs HR ltac:(lia)) as (s' & z & n & E & H).
  rewrite Hl in E. rewrite E, <- HE. cbn [obind fst snd]. eexists _, _, _. split; [reflexivity|exact H].
Qed.
(* So a text without anything to report gives no report, and any destination is told at least once, and at most twice, of each *)
Theorem C75_counts : forall A (told heard : list A), once_or_twice told heard -> (length told <= length heard <= 2 * length told)%nat.
Proof. exact @oot_bounds. Qed.
(* The functions above do to the destination what the transcoding of C28 and the string printers do *)
Theorem C75_same_output : forall S (ops : dest_ops S) a b fl s src,
  option_map fst (transcode_into_n ops a b fl s src) = transcode_into ops a b fl s src.
Proof. intros. apply into_forget. Qed.
Theorem C75_printer : forall S (ops : dest_ops S) a b src s,
  option_map fst (p_transcode_n a b src ops s) = p_transcode a b src S ops s /\
  option_map snd (p_transcode_n a b src ops s) = option_map snd (transcode_into_n ops a b flags_none s src).
Proof.
  intros. unfold p_transcode_n, p_transcode. rewrite <- into_forget. destruct (transcode_into_n _ _ _ _ _ _) as [[[s' r] n]|]; split; reflexivity.
Qed.
(* Exactly once is false: 62 units in the 64 units buffer of a string appender, and a byte that is not UTF-8.  The
   replacement character does not fit, so the buffer is emptied and the byte looked at, and reported, again *)
Theorem C75_once_refuted : exists s' n,
  p_transcode_n (Utf U8) (Utf U8) [0xFF] sapp_ops {| sa_str := []; sa_buf := repeat 0x61 62; sa_good := true |} = Some (s', n) /\
  n = [NoteInvalid [0xFF] 1; NoteInvalid [0xFF] 1] /\ sapp_finish s' = repeat 0x61 62 ++ [0xEF; 0xBF; 0xBD] /\
  reads (Utf U8) false [0xFF] [([0xFF], None)] /\ reports (can_encode (Utf U8)) [([0xFF], None)] = [NoteInvalid [0xFF] 1].
Proof.
  eexists _, _. split; [vm_compute; reflexivity|]. split; [reflexivity|]. split; [reflexivity|]. split; [|reflexivity].
  exists [Bad [0xFF]]. split; [|reflexivity]. destruct (items_exist_of U8 false [0xFF]) as [its HI]; [repeat constructor; lia|].
  assert (its = [Bad [0xFF]]) as ->; [|exact HI].
  pose proof (items_length_of U8 _ _ _ HI) as HL. destruct its as [|it [|]]; [apply items_src in HI; discriminate| |cbn in HL; lia].
  pose proof (items_src _ _ _ _ HI) as HS. destruct it as [c|bd]; cbn [srcs_of flat_map src_of app] in HS; rewrite app_nil_r in HS.
  - exfalso. apply items_valid in HI. apply Forall_inv in HI. destruct HI as [HI _]. cbn [enc_of] in HS. unfold enc8 in HS.
    destruct (c <? 0x80) eqn:E1; [|destruct (c <? 0x800); [|destruct (c <? 0x10000)]]; try discriminate. injection HS as <-. discriminate.
  - rewrite HS. reflexivity.
Qed.
(* The same through a pivot buffer, into a 64 units buffer: 17 invalid bytes, the last of which starts the second round,
   and a euro sign that ASCII lacks *)
Example C75_ex_pivot :
  option_map snd (p_transcode_n (Utf U8) (Sb 0 ascii) (repeat 0x61 15 ++ [0xFE; 0xFF; 0xE2; 0x82; 0xAC]) sapp_ops (sapp_init [])) =
  Some [NoteInvalid [0xFE; 0xFF; 0xE2; 0x82; 0xAC] 1; NoteInvalid [0xFF; 0xE2; 0x82; 0xAC] 1; NoteInvalid [0xFF; 0xE2; 0x82; 0xAC] 1; NoteUnsupported 0x20AC].
Proof. vm_compute. reflexivity. Qed.
(* UTF-32 to ASCII, with a surrogate and a code point that ASCII lacks; the hypotheses of C75_notifications *)
Example C75_ex_direct : is_cset (Utf U32) /\ is_cset (Sb 0 ascii) /\ direct (Utf U32) (Sb 0 ascii) <> None /\ no_stop flags_none /\
  unit_text (Utf U32) [0x61; 0xD800; 0x20AC] /\
  full_laws sapp_ops (sapp_R []) /\ sapp_R [] (sapp_init []) [] /\
  p_transcode_n (Utf U32) (Sb 0 ascii) [0x61; 0xD800; 0x20AC] sapp_ops (sapp_init []) =
  Some ({| sa_str := []; sa_buf := [0x61; 0x3F; 0x3F]; sa_good := true |}, [NoteInvalid [0xD800; 0x20AC] 1; NoteUnsupported 0x20AC]) /\
  reports (can_encode (Sb 0 ascii)) [([0x61], Some 0x61); ([0xD800], None); ([0x20AC], Some 0x20AC)] = [NoteInvalid [0xD800; 0x20AC] 1; NoteUnsupported 0x20AC].
Proof.
  split; [exact I|]. split; [reflexivity|]. split; [discriminate|]. split; [split; reflexivity|]. split; [repeat constructor; lia|].
  split; [apply sapp_laws|]. split; [split; [reflexivity|split; [cbn; lia|reflexivity]]|]. split; vm_compute; reflexivity.
Qed.
(* U+F8FF to ASCII: called invalid, as misread says *)
Example C75_ex_private : p_transcode_n (Utf U32) (Sb 0 ascii) [0xF8FF; 0x20AC] sapp_ops (sapp_init []) =
  Some ({| sa_str := []; sa_buf := [0x3F; 0x3F]; sa_good := true |}, [NoteInvalid [0xF8FF; 0x20AC] 1; NoteUnsupported 0x20AC]) /\
  map (misread (Utf U32) (Sb 0 ascii) false) [([0xF8FF], Some 0xF8FF); ([0x20AC], Some 0x20AC)] = [([0xF8FF], None); ([0x20AC], Some 0x20AC)].
Proof. split; vm_compute; reflexivity. Qed.
Print Assumptions C75_reads_exists.
Print Assumptions C75_notifications.
Print Assumptions C75_misread_none.
Print Assumptions C75_direct_order.
Print Assumptions C75_counts.
Print Assumptions C75_same_output.
Print Assumptions C75_printer.
Print Assumptions C75_once_refuted.
