(* C68: charsets chosen at run time (dynamic_charset) behave as the static ones, in every combination of the two.
   [object .. false c t] is static_charset<t, id of c>, [object .. true c t] is its to_dynamic(); the platform is
   (sizeof(wchar_t) = 4, wchar_t signed, char signed), any. *)
From Verif Require Import Base DestModel DestProofs UtfSpec UtfModel UtfSizeModel UtfForms TransSpec SbcsTables SbcsModel PivotModel CsetModel DynModel DynProofs.
From Coq Require Import List.

(* every member *)
Theorem C68_members : forall w4 ws chs c t,
  let d := to_dynamic w4 ws chs c t in
  cd_id d = csid_of c /\ cd_repl d = st_repl c /\ cd_repl_size d = st_repl_size c /\
  (forall ch, cd_validate d ch = st_validate c ch /\ cd_char_size d ch = st_char_size c ch /\ cd_encode d ch = st_encode c ch /\
     cd_decode_unit d ch = st_decode_unit chs c t ch) /\
  (forall n ch, cd_fill d n ch = st_fill c n ch) /\
  (forall src n, cd_count_fast d src n = st_count_fast c src n /\ cd_count d src n = st_count c src n) /\
  cd_write_repl d = st_write_repl c /\
  cd_sanitizer d = st_sanitizer ws c t /\ cd_from_u32 d = st_from_u32 ws c /\ cd_to_u32 d = st_to_u32 ws c t /\
  (forall u id, u <> TChar32 -> call_or_null (dy_find_to d u) id = call_or_null (st_find_to w4 ws c t u) id /\
     call_or_null (dy_find_from d u) id = call_or_null (st_find_from w4 ws c u) id).
Proof.
  intros w4 ws chs c t d. assert (HM : forall u id, u <> TChar32 -> call_or_null (dy_find_to d u) id = call_or_null (st_find_to w4 ws c t u) id /\
     call_or_null (dy_find_from d u) id = call_or_null (st_find_from w4 ws c u) id).
  { intros u id H. split; [apply dyn_find_to|apply dyn_find_from]; exact H. }
  destruct c as [[]|i cs]; repeat split; try reflexivity; intros; apply HM; assumption.
Qed.
(* the replacement character's size is right *)
Theorem C68_replacement_size : forall c, is_cset c ->
  zlen (op_text (st_write_repl c)) = st_repl_size c /\ st_encode c (st_repl c) = Some (op_text (st_write_repl c)).
Proof.
  intros [f|i cs] H; [destruct f; split; vm_compute; reflexivity|]. split; [reflexivity|].
  cbn [is_cset st_encode st_repl st_write_repl] in *.
  do 25 (destruct i as [|i]; [injection H as <-; vm_compute; reflexivity|]). destruct i; discriminate H.
Qed.
(* two dynamic charsets of a character type compare equal exactly when they are the same charset *)
Theorem C68_equality : forall w4 ws chs a b t u, is_cset a -> is_cset b ->
  (dy_eq (to_dynamic w4 ws chs a t) (to_dynamic w4 ws chs b u) = true <-> a = b).
Proof.
  intros w4 ws chs a b t u Ha Hb. unfold dy_eq.
  assert (E : forall c v, cd_id (to_dynamic w4 ws chs c v) = csid_of c) by (intros [] ?; reflexivity).
  rewrite !E, csid_eq by assumption. split; [apply same_cset_eq; assumption|]. intros ->. destruct b as [[]|i cs]; cbn; try reflexivity. apply Nat.eqb_refl.
Qed.
(* find_transcoder gives the same transcoder (or none) whether each charset is static or dynamic: the one that
   the static charsets have *)
Theorem C68_find_transcoder : forall w4 ws chs da a A db b B, is_cset a -> is_cset b -> compatible w4 a A -> compatible w4 b B ->
  find_transcoder w4 ws (object w4 ws chs da a A) (object w4 ws chs db b B) = static_transcoder ws A a b.
Proof. exact find_ok. Qed.
(* hence all the transcoding functions do the same *)
Theorem C68_transcode : forall w4 ws chs da a A db b B fl src space,
  is_cset a -> is_cset b -> compatible w4 a A -> compatible w4 b B ->
  o_transcode w4 ws (object w4 ws chs da a A) (object w4 ws chs db b B) fl src space = transcode_between a b fl src space.
Proof.
  intros w4 ws chs da a A db b B fl src space Ha Hb Ca Cb. unfold o_transcode, transcode_between.
  rewrite find_ok by assumption. rewrite <- (direct_st w4 ws chs A a b). rewrite o_to_obj, o_from_obj.
  destruct (static_transcoder ws A a b); [reflexivity|]. cbn [option_map]. unfold pivot_transcode.
  destruct a as [[]|i cs], b as [[]|j cs']; reflexivity.
Qed.
Theorem C68_transcode_into : forall w4 ws chs da a A db b B S (ops : dest_ops S) fl s src,
  is_cset a -> is_cset b -> compatible w4 a A -> compatible w4 b B ->
  o_transcode_into w4 ws ops (object w4 ws chs da a A) (object w4 ws chs db b B) fl s src = transcode_into ops a b fl s src /\
  o_unsafe_into w4 ws ops (object w4 ws chs da a A) (object w4 ws chs db b B) fl s src = unsafe_into ops a b fl s src.
Proof.
  intros w4 ws chs da a A db b B S ops fl s src Ha Hb Ca Cb. unfold o_transcode_into, transcode_into, o_unsafe_into, unsafe_into.
  rewrite find_ok by assumption. rewrite <- (direct_st w4 ws chs A a b), <- (direct_unsafe_st w4 ws chs A a b). rewrite o_to_obj, o_from_obj.
  destruct (static_transcoder ws A a b); [split; reflexivity|]. cbn [option_map].
  split; destruct a as [[]|i cs], b as [[]|j cs']; reflexivity.
Qed.
(* sizes and the unsafe functions: those of the static charsets *)
Theorem C68_sizes : forall w4 ws chs da a A db b B fl src n,
  is_cset a -> is_cset b -> compatible w4 a A -> compatible w4 b B ->
  o_transcode_size w4 ws (object w4 ws chs da a A) (object w4 ws chs db b B) fl src n =
    o_transcode_size w4 ws (Static a A) (Static b B) fl src n /\
  o_unsafe_size w4 ws (object w4 ws chs da a A) (object w4 ws chs db b B) fl src n =
    o_unsafe_size w4 ws (Static a A) (Static b B) fl src n /\
  o_unsafe_transcode w4 ws (object w4 ws chs da a A) (object w4 ws chs db b B) fl src n =
    o_unsafe_transcode w4 ws (Static a A) (Static b B) fl src n.
Proof.
  intros w4 ws chs da a A db b B fl src n Ha Hb Ca Cb. unfold o_transcode_size, o_unsafe_size, o_unsafe_transcode.
  change (Static a A) with (object w4 ws chs false a A). change (Static b B) with (object w4 ws chs false b B).
  rewrite !find_ok by assumption. rewrite !o_to_obj, !o_from_obj. repeat split; reflexivity.
Qed.
Theorem C68_unsafe_sizes_are : forall w4 ws a A b B fl src n, is_cset a -> is_cset b -> compatible w4 a A -> compatible w4 b B ->
  direct a b = None ->
  o_transcode_size w4 ws (Static a A) (Static b B) fl src n = pivot_size_of a b fl src n /\
  o_unsafe_size w4 ws (Static a A) (Static b B) fl src n = pivot_unsafe_size a b fl src n /\
  o_unsafe_transcode w4 ws (Static a A) (Static b B) fl src n = pivot_unsafe a b fl src n.
Proof.
  intros w4 ws a A b B fl src n Ha Hb Ca Cb HD. unfold o_transcode_size, o_unsafe_size, o_unsafe_transcode.
  change (Static a A) with (object w4 ws true false a A). change (Static b B) with (object w4 ws true false b B).
  rewrite find_ok by assumption. rewrite !o_to_obj, !o_from_obj. rewrite <- (direct_st w4 ws true A a b) in HD.
  destruct (static_transcoder ws A a b); [discriminate HD|].
  destruct a as [[]|i cs], b as [[]|j cs']; try discriminate; repeat split; reflexivity.
Qed.
(* where the charsets have a transcoder of their own, the sizes and the unsafe functions are the transcoder's *)
Theorem C68_direct_utf : forall w4 ws f A g B fl src n, compatible w4 (Utf f) A -> compatible w4 (Utf g) B ->
  o_transcode_size w4 ws (Static (Utf f) A) (Static (Utf g) B) fl src n =
    (do z <- transcode_size_of f g (is_signed ws A) (f_lax fl) (f_stop_invalid fl) src n ; let r := lift_size z in Some (mk_des (z_size r) (z_rest r) 0 (z_reason r))) /\
  o_unsafe_size w4 ws (Static (Utf f) A) (Static (Utf g) B) fl src n =
    (do z <- unsafe_size_of f g (f_lax fl) src n ; let r := lift_size z in Some (mk_des (z_size r) (z_rest r) 0 (z_reason r))) /\
  o_unsafe_transcode w4 ws (Static (Utf f) A) (Static (Utf g) B) fl src n =
    (do z <- unsafe_transcode_of f g (f_lax fl) src n ; let r := lift z in Some (mk_de (r_rest r) (r_out r) 0 (r_reason r) (r_notes r))).
Proof.
  intros w4 ws f A g B fl src n Ca Cb. unfold o_transcode_size, o_unsafe_size, o_unsafe_transcode.
  change (Static (Utf f) A) with (object w4 ws true false (Utf f) A). change (Static (Utf g) B) with (object w4 ws true false (Utf g) B).
  rewrite find_ok by (exact I || assumption).
  repeat split; [destruct (transcode_size_of _ _ _ _ _ _ _) eqn:E|destruct (unsafe_size_of _ _ _ _ _) eqn:E|destruct (unsafe_transcode_of _ _ _ _ _) eqn:E];
    destruct f, g; cbn [static_transcoder tc_size tc_unsafe_size tc_unsafe]; rewrite E; reflexivity.
Qed.
Theorem C68_direct_single_byte : forall w4 ws i cs A B fl src n, is_cset (Sb i cs) -> compatible w4 (Sb i cs) A -> compatible w4 (Utf U32) B ->
  let size (z : option sz_res) := do r <- z ; Some (mk_des (z_size r) (z_rest r) 0 (z_reason r)) in
  let text (z : option tr_result) := do r <- z ; Some (mk_de (r_rest r) (r_out r) 0 (r_reason r) (r_notes r)) in
  let S := Static (Sb i cs) A in let U := Static (Utf U32) B in
  (o_transcode_size w4 ws S U fl src n = size (sb_to_u32_size cs fl src n) /\ o_unsafe_size w4 ws S U fl src n = size (sb_unsafe_size src n) /\
   o_unsafe_transcode w4 ws S U fl src n = text (sb_to_u32_unsafe cs src n)) /\
  (o_transcode_size w4 ws U S fl src n = size (sb_from_u32_size cs fl src n) /\ o_unsafe_size w4 ws U S fl src n = size (sb_from_u32_unsafe_size cs fl src n) /\
   o_unsafe_transcode w4 ws U S fl src n = text (sb_from_u32_unsafe cs fl src n)) /\
  (o_transcode_size w4 ws S S fl src n = size (sb_to_u32_size cs fl src n) /\ o_unsafe_size w4 ws S S fl src n = size (sb_unsafe_size src n) /\
   o_unsafe_transcode w4 ws S S fl src n = text (sb_copy src n)).
Proof.
  intros w4 ws i cs A B fl src n HS Ca Cb. cbv zeta. unfold o_transcode_size, o_unsafe_size, o_unsafe_transcode.
  change (Static (Sb i cs) A) with (object w4 ws true false (Sb i cs) A). change (Static (Utf U32) B) with (object w4 ws true false (Utf U32) B).
  rewrite !find_ok by (exact I || assumption). cbn [static_transcoder]. rewrite Nat.eqb_refl. repeat split; reflexivity.
Qed.
Example C68_ex : (* dynamic utf8 to dynamic windows-1252; dynamic utf16 to wchar_t utf32 *)
  o_transcode true true (object true true true true (Utf U8) TChar8) (object true true true true (Sb 18 windows_1252) TChar) (mk_flags false false false)
    [0x61; 0xE2; 0x82; 0xAC; 0xFF] 9 = Some (mk_de [] [0x61; 0x80; 0x3F] 0 RCompleted [NoteInvalid [0xFF] 1]) /\
  o_transcode true true (object true true true true (Utf U16) TChar16) (object true true true false (Utf U32) TWchar) (mk_flags false false false)
    [0xD83D; 0xDE00] 9 = Some (mk_de [] [0x1F600] 0 RCompleted []) /\
  compatible true (Utf U32) TWchar /\ compatible false (Utf U16) TWchar /\ is_cset (Sb 18 windows_1252).
Proof. repeat split; vm_compute; reflexivity. Qed.
Print Assumptions C68_members.
Print Assumptions C68_replacement_size.
Print Assumptions C68_equality.
Print Assumptions C68_find_transcoder.
Print Assumptions C68_transcode.
Print Assumptions C68_transcode_into.
Print Assumptions C68_sizes.
Print Assumptions C68_unsafe_sizes_are.
Print Assumptions C68_direct_utf.
Print Assumptions C68_direct_single_byte.
