(* Property theorems C14 (encode_fill), C16-C27 and C29: the UTF-8/16/32 charsets.
   [form] ranges over the three encodings; [transcode_of f g lax stop src space]
   is strf's transcode function from f to g called on the units src with space
   units of room.  [items enc lax src its] (UtfSpec.v) is the segmentation of
   src in well-formed sequences (Good cp) and maximal subparts of ill-formed
   ones (Bad units), by Unicode's definitions. *)
From Verif Require Import Base DestModel DestProofs UtfSpec UtfModel UtfBits UtfDecode UtfLoop
  UtfSizeModel UtfSizeProofs UtfUnsafeProofs UtfForms UtfTheorems UtfExact UtfLax.

Definition code (it : item) : Z := match it with Good cp => cp | Bad _ => 0xFFFD end.

Lemma outs32 its : outs_of enc32 its = map code its.
Proof. unfold outs_of. induction its as [|[] its IH]; cbn; f_equal; auto. Qed.

Lemma decode_to_32 f lax src space : units (bits_of f) src -> zlen src <= space ->
  exists its, items (enc_of f) lax src its /\ (forall its', items (enc_of f) lax src its' -> its' = its) /\
    transcode_of f U32 lax false src space =
      Some (mk_tc [] (map code its) Completed (notes_of (enc_of f) its)).
Proof.
  intros HU HS. destruct (items_exist_of f lax src HU) as [its HI]. exists its. split; [exact HI|].
  split; [intros its' HI'; eapply items_det_of; eauto|].
  rewrite <- outs32. apply (one_shot f U32); auto. cbn [enc_of]. rewrite outs32.
  pose proof (items_length_of f lax src its HI). unfold zlen in *. rewrite map_length. lia.
Qed.

(* C16 *)
Theorem C16_utf8_decoding : forall src space, units 8 src -> zlen src <= space ->
  exists its, items enc8 false src its /\ (forall its', items enc8 false src its' -> its' = its) /\
    transcode_of U8 U32 false false src space =
      Some (mk_tc [] (map code its) Completed (notes_of enc8 its)).
Proof. exact (decode_to_32 U8 false). Qed.
(* a 3-byte character, then a truncated 3-byte sequence (one maximal subpart of 2
   bytes), a stray continuation byte, and 'a' *)
Example C16_ex : transcode_of U8 U32 false false [0xE2; 0x82; 0xAC; 0xE2; 0x82; 0x61; 0x80; 0xFF] 10 =
  Some (mk_tc [] [0x20AC; 0xFFFD; 0x61; 0xFFFD; 0xFFFD] Completed
    [([0xE2; 0x82; 0x61; 0x80; 0xFF], 2); ([0x80; 0xFF], 1); ([0xFF], 1)]).
Proof. reflexivity. Qed.
Print Assumptions C16_utf8_decoding.

(* C17 *)
Theorem C17_utf16_decoding : forall lax src space, units 16 src -> zlen src <= space ->
  exists its, items enc16 lax src its /\ (forall its', items enc16 lax src its' -> its' = its) /\
    transcode_of U16 U32 lax false src space =
      Some (mk_tc [] (map code its) Completed (notes_of enc16 its)).
Proof. exact (decode_to_32 U16). Qed.
Example C17_ex : transcode_of U16 U32 false false [0xD83D; 0xDE00; 0xD83D; 0x61; 0xDE00] 10 =
  Some (mk_tc [] [0x1F600; 0xFFFD; 0x61; 0xFFFD] Completed
    [([0xD83D; 0x61; 0xDE00], 1); ([0xDE00], 1)]).
Proof. reflexivity. Qed.
Print Assumptions C17_utf16_decoding.

(* C18: element by element *)
Definition code32 (lax : bool) (c : Z) : Z :=
  if (c <=? 0x10FFFF) && (lax || negb (is_surr c)) then c else 0xFFFD.
Theorem C18_utf32_encoding : forall g lax src space, units 32 src ->
  zlen (flat_map (fun c => enc_of g (code32 lax c)) src) <= space ->
  exists notes, transcode_of U32 g lax false src space =
    Some (mk_tc [] (flat_map (fun c => enc_of g (code32 lax c)) src) Completed notes).
Proof.
  intros g lax src space HU HS. destruct (items_exist_of U32 lax src HU) as [its HI].
  assert (outs_of (enc_of g) its = flat_map (fun c => enc_of g (code32 lax c)) src) as HE.
  { clear HS. cbn [enc_of bits_of] in *.
    induction HI as [|cp rest its HV HL HI IH|bad rest its HUn HM HI IH]; [reflexivity| |].
    - apply units_cons in HU as [_ HU]. cbn [enc32 app flat_map outs_of out_of] in *.
      unfold outs_of in *. cbn [flat_map out_of]. rewrite IH by exact HU. f_equal.
      unfold code32. destruct HV as [Hr [->|Hs]]; [|rewrite Hs, orb_true_r]; cbn [orb]; rewrite andb_true_r;
        replace (cp <=? 0x10FFFF) with true by lia; reflexivity.
    - assert (length bad = 1%nat) as HB.
      { destruct HM as (_ & [N|[N (cp & _ & [w Hw])]] & _); [exact N|]. cbn in Hw.
        destruct bad as [|x [|y b]]; [congruence|reflexivity|discriminate]. }
      destruct bad as [|x [|y b]]; try discriminate. cbn [app flat_map].
      apply units_cons in HU as [Hx HU]. unfold outs_of in *. cbn [flat_map out_of]. rewrite IH by exact HU. f_equal.
      f_equal. unfold code32. destruct ((x <=? 0x10FFFF) && (lax || negb (is_surr x))) eqn:E; [|reflexivity].
      exfalso. apply (HUn x); [|exists rest; reflexivity]. apply andb_prop in E as [E1 E2]. split; [lia|].
      destruct lax; [left; reflexivity|right; cbn in E2; destruct (is_surr x); [discriminate|reflexivity]]. }
  eexists. rewrite <- HE in HS |- *. apply (one_shot U32 g); assumption.
Qed.
Example C18_ex : transcode_of U32 U8 false false [0x61; 0xD800; 0x110000; 0x10FFFF; 0xFFFFFFFF] 20 =
  Some (mk_tc [] [0x61; 0xEF; 0xBF; 0xBD; 0xEF; 0xBF; 0xBD; 0xF4; 0x8F; 0xBF; 0xBF; 0xEF; 0xBF; 0xBD] Completed
   [([0xD800; 0x110000; 0x10FFFF; 0xFFFFFFFF], 1); ([0x110000; 0x10FFFF; 0xFFFFFFFF], 1); ([0xFFFFFFFF], 1)]).
Proof. reflexivity. Qed.
Print Assumptions C18_utf32_encoding.

(* C19 *)
Theorem C19_validate : forall f cp, 0 <= cp < 2 ^ 32 ->
  (valid_cp false cp -> validate_of f cp = zlen (enc_of f cp)) /\
  (~ valid_cp false cp -> validate_of f cp = -1).
Proof. exact validate_of_ok. Qed.
Theorem C19_encode_char : forall f cp, 0 <= cp < 2 ^ 32 ->
  char_size_of f cp = zlen (encode_char_of f cp) /\
  (cp <= 0x10FFFF -> encode_char_of f cp = enc_of f cp) /\
  (cp > 0x10FFFF -> f <> U32 -> encode_char_of f cp = enc_of f 0xFFFD).
Proof.
  intros f cp H. split; [apply char_size_of_ok; lia|].
  assert (clamp cp = if cp <? 0x110000 then cp else 0xFFFD) as HC by reflexivity.
  split; [intros H1; replace (cp <? 0x110000) with true in HC by lia
         |intros H1 Hf; replace (cp <? 0x110000) with false in HC by lia];
    destruct f; cbn [encode_char_of enc_of]; rewrite ?encode_char8_ok, ?encode_char16_ok by lia; try congruence.
  unfold encode_char32, enc32. rewrite c32_id by lia. reflexivity.
Qed.
Example C19_ex : validate_of U8 0x20AC = 3 /\ validate_of U16 0xDFFF = -1 /\ encode_char_of U16 0x1F600 = [0xD83D; 0xDE00].
Proof. repeat split. Qed.
Print Assumptions C19_validate.
Print Assumptions C19_encode_char.

(* C14: encode_fill and write_replacement_char on any destination obeying the contract *)
Theorem C14_encode_fill : forall S (ops : dest_ops S) R pre, dest_laws ops R pre ->
  forall f s t n cp, R s t -> 0 <= cp < 2 ^ 32 ->
  exists s', run_op ops s (encode_fill_of f n cp) = Some s' /\
    R s' (t ++ concat (repeat (encode_char_of f cp) (Z.to_nat n))).
Proof.
  intros S ops R pre L f s t n cp HR Hc. destruct (encode_fill_of_ok f n cp Hc) as [Hw Ht]. rewrite <- Ht.
  apply (run_op_ok ops R pre L); auto.
  destruct f; cbn [encode_fill_of]; unfold encode_fill8, encode_fill16, encode_fill32; bdestr; exact I.
Qed.
Theorem C14_write_replacement_char : forall S (ops : dest_ops S) R pre, dest_laws ops R pre ->
  forall f s t, R s t ->
  exists s', run_op ops s (write_replacement_of f) = Some s' /\ R s' (t ++ enc_of f 0xFFFD).
Proof.
  intros S ops R pre L f s t HR.
  replace (enc_of f 0xFFFD) with (op_text (write_replacement_of f)) by (destruct f; reflexivity).
  apply (run_op_ok ops R pre L); auto; destruct f; cbn; auto; lia.
Qed.
Example C14_encode_fill_ex : op_text (encode_fill_of U8 3 0x20AC) = [0xE2; 0x82; 0xAC; 0xE2; 0x82; 0xAC; 0xE2; 0x82; 0xAC].
Proof. reflexivity. Qed.
Print Assumptions C14_encode_fill.
Print Assumptions C14_write_replacement_char.

(* C20: valid text is transcoded exactly, hence round trips are the identity *)
Theorem C20_valid_text_exact : forall f g lax stop cps space, valid_text false cps ->
  zlen (encode (enc_of g) cps) <= space ->
  transcode_of f g lax stop (encode (enc_of f) cps) space =
    Some (mk_tc [] (encode (enc_of g) cps) Completed []).
Proof.
  exact (fun f g lax stop cps space HV HS =>
    transcode_valid f g lax stop cps space (fun _ => HV) (valid_text_lax lax cps HV) HS).
Qed.
Theorem C20_round_trip : forall f g lax stop s space1 space2, well_formed (enc_of f) false s ->
  4 * zlen s <= space1 -> zlen s <= space2 ->
  exists r1 r2, transcode_of f g lax stop s space1 = Some r1 /\ t_reason r1 = Completed /\
    transcode_of g f lax stop (t_out r1) space2 = Some r2 /\ t_reason r2 = Completed /\ t_out r2 = s.
Proof.
  intros f g lax stop s sp1 sp2 (cps & HV & ->) H1 H2.
  assert (zlen (encode (enc_of g) cps) <= 4 * zlen (encode (enc_of f) cps)) as HL.
  { rewrite <- !outs_good. pose proof (outs_len_pos g (map Good cps)). pose proof (outs_len_pos f (map Good cps)). lia. }
  do 2 eexists. rewrite (C20_valid_text_exact f g) by (auto; lia). split; [reflexivity|]. split; [reflexivity|].
  cbn [t_out]. rewrite (C20_valid_text_exact g f) by (auto; lia). split; [reflexivity|]. split; reflexivity.
Qed.
Example C20_ex : valid_text false [0x61; 0xE9; 0x20AC; 0x1F600] /\
  transcode_of U8 U16 false true (encode enc8 [0x61; 0xE9; 0x20AC; 0x1F600]) 5 =
  Some (mk_tc [] [0x61; 0xE9; 0x20AC; 0xD83D; 0xDE00] Completed []).
Proof. split; [|reflexivity]. repeat constructor; try lia; right; reflexivity. Qed.
Print Assumptions C20_valid_text_exact.
Print Assumptions C20_round_trip.

(* C21, including partial outputs.  In lax mode the output is an encoding of code
   points that may be surrogates. *)
Theorem C21_output_well_formed : forall f g lax stop src space, units (bits_of f) src -> 0 <= space ->
  exists r, transcode_of f g lax stop src space = Some r /\ zlen (t_out r) <= space /\
    well_formed (enc_of g) lax (t_out r).
Proof.
  intros f g lax stop src space HU HS. destruct (items_exist_of f lax src HU) as [its HI].
  destruct (transcode_items f g lax stop src space its HU HS HI) as (r & Hr & done & todo & E & _ & Ho & Hl & _).
  exists r. split; [exact Hr|]. split; [exact Hl|]. rewrite Ho. eapply outs_well_formed; eauto.
Qed.
Example C21_ex : option_map t_out (transcode_of U8 U8 false false [0xC0; 0x80; 0xED; 0xA0; 0x80] 8) =
  Some [0xEF; 0xBF; 0xBD; 0xEF; 0xBF; 0xBD].
Proof. reflexivity. Qed.
Print Assumptions C21_output_well_formed.

(* C22.  The size functions return exactly what the transcode function called with
   limit units of space writes and where and why it stops.  Two exceptions:
   utf8 -> utf8 without the stop flag (behaves as if limit were limit - 1, see
   below), and utf32 -> utf32 with the stop flag for a signed character type on
   units with the top bit set. *)
Theorem C22_size_predicts_partial : forall f g sgn lax stop src limit, units (bits_of f) src -> 0 <= limit ->
  ~ (f = U8 /\ g = U8 /\ stop = false) ->
  (f = U32 -> g = U32 -> stop = true -> sgn = true -> Forall (fun c => c < 2 ^ 31) src) ->
  exists r, transcode_of f g lax stop src limit = Some r /\
    transcode_size_of f g sgn lax stop src limit = Some (mk_sz (zlen (t_out r)) (t_rest r) (t_reason r)).
Proof.
  intros f g sgn lax stop src limit HU HL H88 H32.
  destruct (items_exist_of f lax src HU) as [its HI].
  destruct (transcode_items f g lax stop src limit its HU HL HI) as (r & Hr & _). exists r. split; [exact Hr|].
  assert (transcode_size_of f g sgn lax stop src limit = option_map size_of (transcode_of f g lax stop src limit)) as ->;
    [|rewrite Hr; reflexivity].
  destruct f, g; cbn [transcode_size_of transcode_of bits_of] in *.
  - destruct stop; [apply size_8_8_stop_ok; assumption|]. exfalso; apply H88; auto.
  - apply size_8_16_ok; assumption.
  - apply size_8_32_ok; assumption.
  - apply size_16_8_ok; assumption.
  - apply size_16_16_ok; assumption.
  - apply size_16_32_ok; assumption.
  - apply size_32_8_ok; assumption.
  - apply size_32_16_ok; assumption.
  - destruct stop.
    + apply size_32_32_gen; auto.
    + unfold size_32_32, transcode_32_32, transcode. cbn [negb]. rewrite tc_32_32_cont by lia.
      destruct (zlen src <=? limit); reflexivity.
Qed.
Theorem C22_size_8_8_continue : forall lax src limit, units 8 src -> 1 <= limit ->
  exists r, transcode_of U8 U8 lax false src (limit - 1) = Some r /\
    transcode_size_of U8 U8 false lax false src limit = Some (mk_sz (zlen (t_out r)) (t_rest r) (t_reason r)).
Proof.
  intros lax src limit HU HL. destruct (items_exist_of U8 lax src HU) as [its HI].
  destruct (transcode_items U8 U8 lax false src (limit - 1) its HU ltac:(lia) HI) as (r & Hr & _). exists r.
  split; [exact Hr|]. cbn [transcode_size_of transcode_of] in *.
  rewrite size_8_8_cont_ok by assumption. rewrite Hr. reflexivity.
Qed.
(* utf8 -> utf8 without the stop flag: the prediction is right exactly when the output does not
   fill the limit (or the limit is zero). *)
Theorem C22_size_8_8_iff_partial : forall lax src limit, units 8 src -> 0 <= limit ->
  exists z r, transcode_size_of U8 U8 false lax false src limit = Some z /\ transcode_of U8 U8 lax false src limit = Some r /\
    (z = mk_sz (zlen (t_out r)) (t_rest r) (t_reason r) <-> limit = 0 \/ zlen (t_out r) < limit).
Proof. exact size_8_8_exact. Qed.
(* utf32 -> utf32 with the stop flag and a signed source type: right exactly when the
   transcoder does not stop at a unit with the top bit set. *)
Theorem C22_size_32_32_signed_iff_partial : forall lax src limit, units 32 src -> 0 <= limit ->
  exists z r, transcode_size_of U32 U32 true lax true src limit = Some z /\ transcode_of U32 U32 lax true src limit = Some r /\
    (z = mk_sz (zlen (t_out r)) (t_rest r) (t_reason r) <->
     ~ (t_reason r = InvalidSequence /\ exists c rest, t_rest r = c :: rest /\ 2 ^ 31 <= c)).
Proof. exact size_32_32_signed. Qed.
Theorem C22_refuted : exists src limit r, units 8 src /\
  transcode_of U8 U8 false false src limit = Some r /\
  transcode_size_of U8 U8 false false false src limit <> Some (mk_sz (zlen (t_out r)) (t_rest r) (t_reason r)).
Proof. exists [0x61], 1, (mk_tc [] [0x61] Completed []). split; [repeat constructor; cbn; lia|]. split; [reflexivity|discriminate]. Qed.
Theorem C22_signed_refuted : exists src r, units 32 src /\
  transcode_of U32 U32 false true src 1 = Some r /\
  transcode_size_of U32 U32 true false true src 1 <> Some (mk_sz (zlen (t_out r)) (t_rest r) (t_reason r)).
Proof.
  exists [0xFFFFFFFF], (mk_tc [0xFFFFFFFF] [] InvalidSequence [([0xFFFFFFFF], 1)]).
  split; [repeat constructor; cbn; lia|]. split; [reflexivity|discriminate].
Qed.
Example C22_ex : transcode_size_of U8 U16 false false false [0xE2; 0x82; 0xAC; 0xF0; 0x9F; 0x98; 0x80; 0x80] 10 =
  Some (mk_sz 4 [] Completed).
Proof. reflexivity. Qed.
Print Assumptions C22_size_predicts_partial.
Print Assumptions C22_size_8_8_continue.
Print Assumptions C22_size_8_8_iff_partial.
Print Assumptions C22_size_32_32_signed_iff_partial.
Print Assumptions C22_refuted.
Print Assumptions C22_signed_refuted.

(* C23: over any succession of buffers. *)
(* One call, with any space and either value of the stop flag: which items are written, where it
   stops and why, and what is notified (transcoded: UtfSpec). *)
Theorem C23_one_call : forall f g lax stop src space, units (bits_of f) src -> 0 <= space ->
  exists its r, items (enc_of f) lax src its /\ transcode_of f g lax stop src space = Some r /\ transcoded (enc_of f) (enc_of g) stop its space r.
Proof. intros f g lax stop src space HU HS. destruct (transcode_of_ok f g lax stop src space HU HS) as (its & HI & r & E & H). exists its, r. auto. Qed.
Example C23_one_call_ex : transcode_of U8 U16 false true [0x61; 0xC3; 0xA9; 0xF0; 0x9F; 0x98; 0x80; 0xFF] 3 = Some (mk_tc [0xF0; 0x9F; 0x98; 0x80; 0xFF] [0x61; 0xE9] Insufficient []).
Proof. reflexivity. Qed.
Print Assumptions C23_one_call.
Theorem C23_resume : forall f g lax src spaces big r1, units (bits_of f) src -> Forall (Z.le 0) spaces ->
  transcode_of f g lax false src big = Some r1 -> t_reason r1 = Completed -> 0 <= big ->
  exists outs rest r2,
    feed (transcode_of f g lax false) src spaces = Some (outs, rest) /\
    Forall2 (fun o sp => zlen o <= sp) outs spaces /\
    transcode_of f g lax false rest big = Some r2 /\ t_reason r2 = Completed /\
    concat outs ++ t_out r2 = t_out r1.
Proof.
  intros f g lax src spaces big r1 HU HP Hr1 Hc1 Hb. destruct (items_exist_of f lax src HU) as [its HI].
  destruct (feed_ok f g lax spaces src its HP HU HI) as (outs & done & todo & -> & HF & HC & HL).
  destruct (transcode_items f g lax false src big _ HU Hb HI) as (r & Hr & d & t & E & _ & Ho & Hl & _ & Hre).
  rewrite Hr in Hr1. injection Hr1 as ->. rewrite Hc1 in Hre. destruct Hre as [-> _]. rewrite app_nil_r in E. subst d.
  rewrite Ho in Hl. rewrite outs_app, zlen_app in Hl. pose proof (zlen_nonneg (outs_of (enc_of g) done)).
  exists outs, (srcs_of (enc_of f) todo). eexists. split; [exact HF|]. split; [exact HL|].
  rewrite (one_shot f g lax (srcs_of (enc_of f) todo) todo big);
    [|eapply units_srcs; eauto|eapply items_suffix; eauto|lia].
  split; [reflexivity|]. split; [reflexivity|]. cbn [t_out]. rewrite Ho, HC, outs_app. reflexivity.
Qed.
(* Buffers of at least 4 units always make progress: as many of them as source units suffice. *)
Theorem C23_resume_terminates : forall f g lax src spaces, units (bits_of f) src -> Forall (Z.le 4) spaces ->
  (length src <= length spaces)%nat ->
  exists outs r1, feed (transcode_of f g lax false) src spaces = Some (outs, []) /\
    transcode_of f g lax false src (4 * zlen src) = Some r1 /\ t_reason r1 = Completed /\
    concat outs = t_out r1.
Proof.
  intros f g lax src spaces HU HP HL. destruct (items_exist_of f lax src HU) as [its HI].
  pose proof (items_length_of f lax src its HI) as HN.
  destruct (feed_all f g lax spaces src its HP HU HI ltac:(lia)) as (outs & HF & HC).
  exists outs. eexists. split; [exact HF|].
  rewrite (one_shot f g lax src its (4 * zlen src) HU HI).
  - split; [reflexivity|]. split; [reflexivity|]. exact HC.
  - pose proof (outs_len_pos g its). unfold zlen in *. lia.
Qed.
Example C23_ex : feed (transcode_of U8 U8 false false) [0x61; 0xE2; 0x82; 0xAC; 0xFF; 0x62] [3; 3; 2; 5] =
  Some ([[0x61]; [0xE2; 0x82; 0xAC]; []; [0xEF; 0xBF; 0xBD; 0x62]], []).
Proof. reflexivity. Qed.
Print Assumptions C23_resume.
Print Assumptions C23_resume_terminates.

(* C24 for a text processed in one call (with room for everything). *)
Theorem C24_notified_once_partial : forall f g lax src space its r, units (bits_of f) src -> 0 <= space ->
  items (enc_of f) lax src its ->
  transcode_of f g lax false src space = Some r -> t_reason r = Completed ->
  t_notes r = notes_of (enc_of f) its /\ length (t_notes r) = length (filter is_bad its).
Proof.
  intros f g lax src space its r HU HS HI Hr Hc.
  destruct (transcode_items f g lax false src space its HU HS HI) as (r' & Hr' & d & t & E & _ & _ & _ & _ & Hre).
  rewrite Hr in Hr'. injection Hr' as <-. rewrite Hc in Hre. destruct Hre as [_ ->]. split; [reflexivity|].
  clear. induction its as [|[] its IH]; cbn; auto.
Qed.
(* Processed in any number of calls, with any rooms, until nothing is left: every ill-formed
   sequence is reported, in order, each report with the right place and length; some may
   be reported again, at most once for each call. *)
Theorem C24_resume_partial : forall f g lax spaces src its notes, Forall (Z.le 0) spaces -> units (bits_of f) src ->
  items (enc_of f) lax src its ->
  feed_notes (transcode_of f g lax false) src spaces = Some (notes, []) ->
  exists n, repeated (notes_of (enc_of f) its) notes n /\ (n <= length spaces)%nat.
Proof. exact (fun f g lax spaces src its notes HP HU HI HF => feed_notes_ok f g lax spaces src its HP HU HI notes HF). Qed.
Example C24_resume_ex : feed_notes (transcode_of U8 U8 false false) [0x61; 0xFF; 0x62; 0xC2] [3; 3; 1; 3] =
  Some ([([0xFF; 0x62; 0xC2], 1); ([0xFF; 0x62; 0xC2], 1); ([0xC2], 1); ([0xC2], 1)], []).
Proof. vm_compute. reflexivity. Qed.
(* Exactly which: the number of repetitions is the number of calls that ran out of room in
   front of an ill-formed sequence. *)
Theorem C24_resume_exact_partial : forall f g lax spaces src its notes, Forall (Z.le 0) spaces -> units (bits_of f) src ->
  items (enc_of f) lax src its ->
  feed_notes (transcode_of f g lax false) src spaces = Some (notes, []) ->
  exists calls n, feed_calls (transcode_of f g lax false) src spaces = Some calls /\
    repeated (notes_of (enc_of f) its) notes n /\
    counts (fun r => t_reason r = Insufficient /\ unconvertible (enc_of f) lax (t_rest r)) calls n.
Proof. exact (fun f g lax spaces src its notes HP HU HI HF => feed_notes_exact f g lax spaces src its HP HU HI notes HF). Qed.
(* Each ill-formed sequence is notified exactly once if and only if no call stopped there. *)
Theorem C24_once_iff_partial : forall f g lax spaces src its notes calls, Forall (Z.le 0) spaces -> units (bits_of f) src ->
  items (enc_of f) lax src its ->
  feed_notes (transcode_of f g lax false) src spaces = Some (notes, []) ->
  feed_calls (transcode_of f g lax false) src spaces = Some calls ->
  notes = notes_of (enc_of f) its <->
  ~ Exists (fun r => t_reason r = Insufficient /\ unconvertible (enc_of f) lax (t_rest r)) calls.
Proof.
  intros f g lax spaces src its notes calls HP HU HI HF HC.
  destruct (feed_notes_exact f g lax spaces src its HP HU HI notes HF) as (calls' & n & HC' & Hr & Hn).
  rewrite HC in HC'. injection HC' as <-. rewrite <- (counts_exists _ _ _ Hn). split.
  - intros ->. intros Hz. apply repeated_length in Hr. clear - Hr Hz. lia.
  - intros Hz. apply (repeated_zero _ _ _ Hr). clear - Hz. lia.
Qed.
Example C24_once_iff_ex : exists calls,
  feed_calls (transcode_of U8 U8 false false) [0x61; 0xFF; 0x62; 0xC2] [4; 1; 3] = Some calls /\
  feed_notes (transcode_of U8 U8 false false) [0x61; 0xFF; 0x62; 0xC2] [4; 1; 3] =
    Some ([([0xFF; 0x62; 0xC2], 1); ([0xC2], 1); ([0xC2], 1)], []) /\
  option_map t_reason (nth_error calls 0) = Some Insufficient /\ option_map t_rest (nth_error calls 0) = Some [0x62; 0xC2] /\
  option_map t_reason (nth_error calls 1) = Some Insufficient /\ option_map t_rest (nth_error calls 1) = Some [0xC2].
Proof. eexists. repeat split; vm_compute; reflexivity. Qed.
(* In several calls the sequence at the boundary is notified again. *)
Theorem C24_resume_refuted : exists src sp1 sp2 r1 r2, units 8 src /\
  transcode_of U8 U8 false false src sp1 = Some r1 /\ t_reason r1 = Insufficient /\
  transcode_of U8 U8 false false (t_rest r1) sp2 = Some r2 /\ t_reason r2 = Completed /\
  t_notes r1 ++ t_notes r2 = [([0xFF], 1); ([0xFF], 1)] /\ t_out r1 ++ t_out r2 = [0x61; 0xEF; 0xBF; 0xBD].
Proof.
  exists [0x61; 0xFF], 3, 3. do 2 eexists. split; [repeat constructor; cbn; lia|]. repeat (split; [reflexivity|]). reflexivity.
Qed.
Example C24_ex : option_map t_notes (transcode_of U16 U8 false false [0xD800; 0x61; 0xDC00; 0xDC01] 20) =
  Some [([0xD800; 0x61; 0xDC00; 0xDC01], 1); ([0xDC00; 0xDC01], 1); ([0xDC01], 1)].
Proof. reflexivity. Qed.
Print Assumptions C24_notified_once_partial.
Print Assumptions C24_resume_partial.
Print Assumptions C24_resume_exact_partial.
Print Assumptions C24_once_iff_partial.
Print Assumptions C24_resume_refuted.

(* C25 *)
Lemma unsafe_transcode_of_ok f g : unsafe_matches (enc_of f) (bits_of f) (transcode_of f g) (unsafe_transcode_of f g).
Proof.
  destruct f, g; auto using unsafe_8_8_ok, unsafe_8_16_ok, unsafe_8_32_ok, unsafe_16_8_ok,
    unsafe_16_16_ok, unsafe_16_32_ok, unsafe_32_8_ok, unsafe_32_16_ok, unsafe_32_32_ok.
Qed.
Theorem C25_unsafe_transcode : forall f g lax stop src its space, units (bits_of f) src -> 0 <= space ->
  items (enc_of f) lax src its -> existsb is_bad its = false ->
  unsafe_transcode_of f g lax src space = transcode_of f g lax stop src space.
Proof. exact unsafe_transcode_of_ok. Qed.
Theorem C25_unsafe_transcode_scalars : forall f g lax stop cps space, valid_text false cps -> 0 <= space ->
  unsafe_transcode_of f g lax (encode (enc_of f) cps) space =
  transcode_of f g lax stop (encode (enc_of f) cps) space.
Proof.
  exact (fun f g lax stop cps space HV HS =>
    C25_unsafe_transcode f g lax stop _ _ space (encode_units f false cps HV) HS
      (items_encode f lax cps (fun _ => HV) (valid_text_lax lax cps HV)) (no_bad_good cps)).
Qed.
(* sizes: all pairs but utf8 -> utf32 *)
Theorem C25_unsafe_size_partial : forall f g lax stop src its limit, units (bits_of f) src -> 0 <= limit ->
  items (enc_of f) lax src its -> existsb is_bad its = false -> ~ (f = U8 /\ g = U32) ->
  exists r, transcode_of f g lax stop src limit = Some r /\
    unsafe_size_of f g lax src limit = Some (mk_sz (zlen (t_out r)) (t_rest r) (t_reason r)).
Proof.
  intros f g lax stop src its limit HU HL HI HB HN.
  destruct (transcode_items f g lax stop src limit its HU HL HI) as (r & Hr & _). exists r. split; [exact Hr|].
  assert (unsafe_size_matches (enc_of f) (bits_of f) (transcode_of f g) (unsafe_size_of f g)) as H.
  { destruct f, g; auto using unsafe_size_8_8_ok, unsafe_size_8_16_ok, unsafe_size_16_8_ok,
    unsafe_size_16_16_ok, unsafe_size_16_32_ok, unsafe_size_32_8_ok, unsafe_size_32_16_ok, unsafe_size_32_32_ok.
    exfalso; apply HN; auto. }
  rewrite (H lax stop src its limit) by assumption. rewrite Hr. reflexivity.
Qed.
Theorem C25_unsafe_size_8_32_partial : forall lax stop src its limit, units 8 src -> 0 <= limit ->
  items enc8 lax src its -> existsb is_bad its = false ->
  exists z r, unsafe_size_of U8 U32 lax src limit = Some z /\ transcode_of U8 U32 lax stop src limit = Some r /\
    s_size z = zlen (t_out r) /\
    (zlen src <= limit -> z = mk_sz (zlen (t_out r)) (t_rest r) (t_reason r)).
Proof. exact unsafe_size_8_32_partial_ok. Qed.
(* Exactly when: unless the limit-th code point of the text takes more than one byte. *)
Theorem C25_unsafe_size_8_32_iff_partial : forall lax stop cps limit, valid_text lax cps -> 0 <= limit ->
  exists z r, unsafe_size_of U8 U32 lax (encode enc8 cps) limit = Some z /\
    transcode_of U8 U32 lax stop (encode enc8 cps) limit = Some r /\
    (z = mk_sz (zlen (t_out r)) (t_rest r) (t_reason r) <->
     forall cp, 1 <= limit -> nth_error cps (Z.to_nat (limit - 1)) = Some cp -> cp < 0x80).
Proof.
  exact (fun lax stop cps limit HV HL => unsafe_size_8_32_exact lax stop cps limit
    (items_encode U8 lax cps (fun e => match e with eq_refl => I end) HV) (encode_units U8 lax cps HV) HL).
Qed.
(* U+00E9 with limit 1: everything fits, but the function reports insufficient
   space with a position in the middle of the sequence *)
Theorem C25_unsafe_size_refuted : exists cps limit r, valid_text false cps /\
  transcode_of U8 U32 false false (encode enc8 cps) limit = Some r /\ t_reason r = Completed /\
  unsafe_size_of U8 U32 false (encode enc8 cps) limit = Some (mk_sz 1 [0xA9] Insufficient).
Proof.
  exists [0xE9], 1. eexists. split; [repeat constructor; try lia; right; reflexivity|].
  split; [reflexivity|]. split; reflexivity.
Qed.
Example C25_ex : unsafe_transcode_of U16 U8 false [0x61; 0xD83D; 0xDE00; 0x20AC] 6 =
  Some (mk_tc [0x20AC] [0x61; 0xF0; 0x9F; 0x98; 0x80] Insufficient []).
Proof. reflexivity. Qed.
Print Assumptions C25_unsafe_transcode.
Print Assumptions C25_unsafe_transcode_scalars.
Print Assumptions C25_unsafe_size_partial.
Print Assumptions C25_unsafe_size_8_32_partial.
Print Assumptions C25_unsafe_size_8_32_iff_partial.
Print Assumptions C25_unsafe_size_refuted.

(* C26.  UTF-16 and UTF-32: the segmentation changes only in that ill-formed single
   surrogate units become code points.  UTF-8: encoded surrogates decode to
   themselves, and a text without the first two bytes of an encoded surrogate is
   treated identically in both modes. *)
Theorem C26_lax_16_32 : forall f g src its space, f <> U8 -> units (bits_of f) src ->
  items (enc_of f) false src its -> 4 * zlen src <= space ->
  let lax_its := map (fun it => match it with Bad [c] => if is_surr c then Good c else it | _ => it end) its in
  transcode_of f g false false src space = Some (mk_tc [] (outs_of (enc_of g) its) Completed (notes_of (enc_of f) its)) /\
  transcode_of f g true false src space = Some (mk_tc [] (outs_of (enc_of g) lax_its) Completed (notes_of (enc_of f) lax_its)).
Proof.
  intros f g src its space Hf HU HI HS. pose proof (items_length_of _ _ _ _ HI).
  pose proof (laxify_items f Hf (length src) src its (le_n _) HU HI) as HI1.
  split.
  - apply one_shot; auto. pose proof (outs_len_pos g its). unfold zlen in *. lia.
  - apply (one_shot f g true src (map laxify its)); auto. pose proof (outs_len_pos g (map laxify its)).
    unfold zlen in *. rewrite map_length in *. lia.
Qed.
Theorem C26_lax_8_same : forall g stop src space, units 8 src ->
  (forall p b q, src = p ++ 0xED :: b :: q -> ~ (0xA0 <= b <= 0xBF)) ->
  transcode_of U8 g true stop src space = transcode_of U8 g false stop src space.
Proof. exact lax_same_8. Qed.
Theorem C26_lax_8_surrogates : forall f g stop cps space, f <> U16 -> valid_text true cps ->
  zlen (encode (enc_of g) cps) <= space ->
  transcode_of f g true stop (encode (enc_of f) cps) space =
    Some (mk_tc [] (encode (enc_of g) cps) Completed []).
Proof.
  intros f g stop cps space Hf HV HS. apply transcode_valid; auto. intros E; congruence.
Qed.
(* any UTF-8 text, in both modes: strict mode reads as lax mode does, but for each byte of an encoded
   surrogate, or of a truncated one (0xED, 0xA0..0xBF), being an ill-formed sequence of its own *)
Theorem C26_lax_8_any : forall g src its space, units 8 src -> items enc8 true src its -> 4 * zlen src <= space ->
  let strict_its := flat_map (fun it => match src_of enc8 it with
    | b0 :: b1 :: _ => if (b0 =? 0xED) && (0xA0 <=? b1) && (b1 <=? 0xBF) then map (fun u => Bad [u]) (src_of enc8 it) else [it]
    | _ => [it] end) its in
  transcode_of U8 g true false src space = Some (mk_tc [] (outs_of (enc_of g) its) Completed (notes_of enc8 its)) /\
  transcode_of U8 g false false src space = Some (mk_tc [] (outs_of (enc_of g) strict_its) Completed (notes_of enc8 strict_its)).
Proof.
  intros g src its space HU HI HS strict_its. pose proof (strictly_items (length src) src its (le_n _) HU HI) as H0. change (flat_map strictly its) with strict_its in H0.
  pose proof (items_length_of U8 true src its HI) as L1. pose proof (items_length_of U8 false src strict_its H0) as L0. split.
  - apply (one_shot U8 g true src its); auto. pose proof (outs_len_pos g its). unfold zlen in *. lia.
  - apply (one_shot U8 g false src strict_its); auto. pose proof (outs_len_pos g strict_its). unfold zlen in *. lia.
Qed.
Example C26_any_ex : let src := [0xED; 0xB0; 0x80; 0xFF; 0xED; 0xA0; 0x61; 0xED; 0x9F; 0xBF] in
  option_map t_out (transcode_of U8 U32 true false src 40) = Some [0xDC00; 0xFFFD; 0xFFFD; 0x61; 0xD7FF] /\
  option_map t_out (transcode_of U8 U32 false false src 40) = Some [0xFFFD; 0xFFFD; 0xFFFD; 0xFFFD; 0xFFFD; 0xFFFD; 0x61; 0xD7FF].
Proof. split; reflexivity. Qed.
Print Assumptions C26_lax_8_any.
Example C26_ex : transcode_of U8 U16 true true [0xED; 0xA0; 0x80; 0x61] 4 = Some (mk_tc [] [0xD800; 0x61] Completed [])
  /\ option_map t_out (transcode_of U8 U16 false false [0xED; 0xA0; 0x80; 0x61] 4) = Some [0xFFFD; 0xFFFD; 0xFFFD; 0x61]
  /\ option_map t_out (transcode_of U16 U32 true false [0xDC00; 0xD83D; 0xDE00] 4) = Some [0xDC00; 0x1F600].
Proof. repeat split. Qed.
Print Assumptions C26_lax_16_32.
Print Assumptions C26_lax_8_same.
Print Assumptions C26_lax_8_surrogates.

(* C27 *)
Theorem C27_stop_at_first_invalid : forall f g lax src its space, units (bits_of f) src ->
  items (enc_of f) lax src its -> 4 * zlen src <= space ->
  (existsb is_bad its = false ->
     transcode_of f g lax true src space = Some (mk_tc [] (outs_of (enc_of g) its) Completed [])) /\
  (forall good b more, its = good ++ Bad b :: more -> existsb is_bad good = false ->
     transcode_of f g lax true src space =
       Some (mk_tc (srcs_of (enc_of f) (Bad b :: more)) (outs_of (enc_of g) good) InvalidSequence
               [(srcs_of (enc_of f) (Bad b :: more), zlen b)]) /\
     src = srcs_of (enc_of f) good ++ srcs_of (enc_of f) (Bad b :: more)).
Proof.
  intros f g lax src its space HU HI HS. pose proof (items_length_of _ _ _ _ HI) as HN.
  split.
  - intros HB. apply one_shot_stop_good; auto. pose proof (outs_len_pos g its). unfold zlen in *. lia.
  - intros good b more -> HB. split.
    + apply one_shot_stop_bad; auto. pose proof (outs_len_pos g good). rewrite app_length in HN. cbn in HN.
      unfold zlen in *. lia.
    + rewrite <- srcs_app. apply (items_src _ _ _ _ HI).
Qed.
Example C27_ex : transcode_of U8 U32 false true [0x61; 0xC3; 0xA9; 0xE2; 0x82; 0x62] 9 =
  Some (mk_tc [0xE2; 0x82; 0x62] [0x61; 0xE9] InvalidSequence [([0xE2; 0x82; 0x62], 2)]).
Proof. reflexivity. Qed.
Print Assumptions C27_stop_at_first_invalid.

(* C29 *)
Theorem C29_count_codepoints : forall f src its max, units (bits_of f) src -> 0 <= max ->
  items (enc_of f) false src its ->
  count_of f src max = Some (Z.min (zlen its) max, srcs_of (enc_of f) (skipn (Z.to_nat max) its)).
Proof.
  intros f src its max HU HM HI. destruct f; cbn [count_of enc_of bits_of] in *.
  - apply count8_ok; assumption.
  - eapply count16_ok; eassumption.
  - f_equal. eapply count32_ok; eassumption.
Qed.
Theorem C29_count_codepoints_fast : forall f cps max, valid_text false cps -> 0 <= max ->
  count_fast_of f (encode (enc_of f) cps) max =
    Some (Z.min (zlen cps) max, encode (enc_of f) (skipn (Z.to_nat max) cps)) /\
  count_of f (encode (enc_of f) cps) max = count_fast_of f (encode (enc_of f) cps) max.
Proof.
  intros f cps max HV HM.
  assert (forall g, items (enc_of g) false (encode (enc_of g) cps) (map Good cps)) as HI
    by (intros g; apply items_encode; auto).
  assert (forall g, count_of g (encode (enc_of g) cps) max =
    Some (Z.min (zlen cps) max, encode (enc_of g) (skipn (Z.to_nat max) cps))) as HC.
  { intros g. rewrite (C29_count_codepoints g _ _ max (encode_units g false cps HV) HM (HI g)).
    unfold zlen. rewrite map_length. rewrite skipn_map, srcs_of_good. reflexivity. }
  rewrite HC. split; [|symmetry]; destruct f; cbn [count_fast_of enc_of].
  1, 4: f_equal; apply (count_fast8_ok false); assumption.
  1, 3: apply count_fast16_ok; assumption.
  1, 2: apply (HC U32).
Qed.
Example C29_ex : count_of U8 [0x61; 0xE2; 0x82; 0x62; 0xFF] 10 = Some (4, []) /\
  count_of U16 [0xD83D; 0xDE00; 0x61; 0x62] 2 = Some (2, [0x62]).
Proof. split; reflexivity. Qed.
Print Assumptions C29_count_codepoints.
Print Assumptions C29_count_codepoints_fast.
