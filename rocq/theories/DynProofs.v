From Verif Require Import Base DestModel UtfSpec UtfModel UtfSizeModel UtfForms TransSpec SbcsTables SbcsModel PivotModel CsetModel DynModel.
From Coq Require Import List.

Lemma sb_ids_nodup : NoDup sb_ids.
Proof. unfold sb_ids. repeat constructor; cbn [In]; intuition discriminate. Qed.
Lemma sb_index i cs : nth_error all_sbcs i = Some cs -> (i < length sb_ids)%nat.
Proof. intros H. change (length sb_ids) with (length all_sbcs). apply nth_error_Some. congruence. Qed.
Lemma sb_id_eq i j : (i < length sb_ids)%nat -> (j < length sb_ids)%nat -> (nth i sb_ids 0 =? nth j sb_ids 0) = (i =? j)%nat.
Proof.
  intros Hi Hj. destruct (Nat.eqb_spec i j) as [->|Hn]; [apply Z.eqb_refl|].
  apply Z.eqb_neq. intros H. apply Hn. exact (proj1 (NoDup_nth sb_ids 0) sb_ids_nodup i j Hi Hj H).
Qed.
Lemma sb_id_utf i x : (i < length sb_ids)%nat -> ~ In x sb_ids -> (nth i sb_ids 0 =? x) = false /\ (x =? nth i sb_ids 0) = false.
Proof. intros Hi HN. split; apply Z.eqb_neq; intros H; apply HN; [rewrite <- H|rewrite H]; apply nth_In; exact Hi. Qed.
Lemma utf_ids : ~ In csid_utf8 sb_ids /\ ~ In csid_utf16 sb_ids /\ ~ In csid_utf32 sb_ids.
Proof. unfold csid_utf8, csid_utf16, csid_utf32, sb_ids; cbn [In]; repeat split; intuition discriminate. Qed.
Definition same_cset (a b : cset) : bool :=
  match a, b with Utf f, Utf g => form_eqb f g | Sb i _, Sb j _ => (i =? j)%nat | _, _ => false end.
Lemma csid_eq a b : is_cset a -> is_cset b -> (csid_of a =? csid_of b) = same_cset a b.
Proof.
  destruct utf_ids as (N8 & N16 & N32).
  destruct a as [f|i cs], b as [g|j cs']; cbn [is_cset]; intros Ha Hb.
  - destruct f, g; reflexivity.
  - apply sb_index in Hb. destruct f; cbn [csid_of same_cset]; apply sb_id_utf; assumption.
  - apply sb_index in Ha. destruct g; cbn [csid_of same_cset]; apply sb_id_utf; assumption.
  - cbn [csid_of same_cset]. apply sb_id_eq; eapply sb_index; eassumption.
Qed.
Lemma same_cset_eq a b : is_cset a -> is_cset b -> same_cset a b = true -> a = b.
Proof.
  destruct a as [f|i cs], b as [g|j cs']; cbn [is_cset same_cset]; intros Ha Hb H; try discriminate.
  - destruct f, g; try discriminate; reflexivity.
  - apply Nat.eqb_eq in H. subst j. congruence.
Qed.

Section Platform.
  Variables (wchar4 wchar_signed char_signed : bool).
  (* CharT of a charset *)
  Definition compatible (c : cset) (t : ctype) : Prop :=
    match c with Utf f => form_of wchar4 t = f | Sb _ _ => t = TChar \/ t = TChar8 end.

  Lemma dyn_find_to c t d : d <> TChar32 -> forall id,
    call_or_null (dy_find_to (to_dynamic wchar4 wchar_signed char_signed c t) d) id = call_or_null (st_find_to wchar4 wchar_signed c t d) id.
  Proof. intros Hd id. destruct c as [f|i cs], d; try congruence; cbn; destruct wchar4; reflexivity. Qed.
  Lemma dyn_find_from c t s : s <> TChar32 -> forall id,
    call_or_null (dy_find_from (to_dynamic wchar4 wchar_signed char_signed c t) s) id = call_or_null (st_find_from wchar4 wchar_signed c s) id.
  Proof. intros Hd id. destruct c as [f|i cs], s; try congruence; cbn; destruct wchar4; reflexivity. Qed.

  Let obj := object wchar4 wchar_signed char_signed.
  Let st := static_transcoder wchar_signed.
  Lemma o_type_obj da c t : o_type (obj da c t) = t.
  Proof. destruct da; reflexivity. Qed.
  Lemma o_id_obj da c t : o_id (obj da c t) = csid_of c.
  Proof. destruct da; [destruct c|]; reflexivity. Qed.
  Lemma o_sanitizer_obj da c t : o_sanitizer wchar_signed (obj da c t) = st t c c.
  Proof. destruct da; [destruct c|]; reflexivity. Qed.
  Lemma o_from_obj da c t : o_from_u32 wchar_signed (obj da c t) = st TChar32 utf32 c.
  Proof. destruct da; [destruct c|]; reflexivity. Qed.
  Lemma o_to_obj da c t : o_to_u32 wchar_signed (obj da c t) = st t c utf32.
  Proof. destruct da; [destruct c|]; reflexivity. Qed.
  Lemma o_find_to_obj da c t d id : d <> TChar32 ->
    call_or_null (o_find_to wchar4 wchar_signed (obj da c t) d) id = call_or_null (st_find_to wchar4 wchar_signed c t d) id.
  Proof. intros Hd. destruct da; [apply dyn_find_to; exact Hd|reflexivity]. Qed.
  Lemma o_find_from_obj da c t d id : d <> TChar32 ->
    call_or_null (o_find_from wchar4 wchar_signed (obj da c t) d) id = call_or_null (st_find_from wchar4 wchar_signed c d) id.
  Proof. intros Hd. destruct da; [apply dyn_find_from; exact Hd|reflexivity]. Qed.

  (* members that exist find the transcoder, if there is one *)
  Lemma find_to_ok a A b B : is_cset a -> is_cset b -> compatible a A -> compatible b B -> B <> TChar32 ->
    call_or_null (st_find_to wchar4 wchar_signed a A B) (csid_of b) = st A a b \/
    (call_or_null (st_find_to wchar4 wchar_signed a A B) (csid_of b) = None /\ exists i cs, b = Sb i cs).
  Proof using All.
    intros Ha Hb Ca Cb HB. destruct a as [f|i cs].
    - cbn [st_find_to call_or_null]. unfold utf_find_to. destruct b as [g|j cs']; [left|right].
      + unfold csid_utf_of. cbn [compatible] in Cb. rewrite Cb, Z.eqb_refl. reflexivity.
      + split; [|eauto]. unfold csid_utf_of. rewrite csid_eq by (try exact I; assumption). reflexivity.
    - destruct b as [g|j cs']; [left|].
      + cbn [compatible] in Cb. unfold st. destruct B; try congruence; cbn [form_of] in Cb; subst g.
        * cbn [st_find_to call_or_null]. unfold sb_find_to_narrow. rewrite csid_eq by (try exact I; assumption). reflexivity.
        * cbn [st_find_to call_or_null]. unfold sb_find_to_narrow. rewrite csid_eq by (try exact I; assumption). reflexivity.
        * reflexivity.
        * cbn [st_find_to call_or_null]. destruct wchar4; reflexivity.
      + left. cbn [compatible] in Cb.
        assert (E : call_or_null (st_find_to wchar4 wchar_signed (Sb i cs) A B) (csid_of (Sb j cs')) =
          if csid_of (Sb j cs') =? csid_of (Sb i cs) then st A (Sb i cs) (Sb i cs) else None) by (destruct Cb as [-> | ->]; reflexivity).
        rewrite E, csid_eq by assumption. cbn [same_cset]. unfold st; cbn [static_transcoder].
        rewrite (Nat.eqb_sym j i), Nat.eqb_refl. destruct (Nat.eqb_spec i j); reflexivity.
  Qed.
  Lemma find_from_ok a A b B : is_cset a -> is_cset b -> compatible a A -> compatible b B -> A <> TChar32 ->
    call_or_null (st_find_from wchar4 wchar_signed b A) (csid_of a) = st A a b \/
    (call_or_null (st_find_from wchar4 wchar_signed b A) (csid_of a) = None /\ exists i cs, a = Sb i cs).
  Proof using All.
    intros Ha Hb Ca Cb HB. destruct b as [f|i cs].
    - cbn [st_find_from call_or_null]. unfold utf_find_from. destruct a as [g|j cs']; [left|right].
      + unfold csid_utf_of. cbn [compatible] in Ca. rewrite Ca, Z.eqb_refl. reflexivity.
      + split; [|eauto]. unfold csid_utf_of. rewrite csid_eq by (try exact I; assumption). reflexivity.
    - destruct a as [g|j cs']; [left|].
      + cbn [compatible] in Ca. unfold st. destruct A; try congruence; cbn [form_of] in Ca; subst g.
        * cbn [st_find_from call_or_null]. unfold sb_find_from_narrow. rewrite csid_eq by (try exact I; assumption). reflexivity.
        * cbn [st_find_from call_or_null]. unfold sb_find_from_narrow. rewrite csid_eq by (try exact I; assumption). reflexivity.
        * reflexivity.
        * cbn [st_find_from call_or_null]. destruct wchar4; reflexivity.
      + left. cbn [compatible] in Ca.
        assert (E : call_or_null (st_find_from wchar4 wchar_signed (Sb i cs) A) (csid_of (Sb j cs')) =
          if csid_of (Sb j cs') =? csid_of (Sb i cs) then st A (Sb i cs) (Sb i cs) else None) by (destruct Ca as [-> | ->]; reflexivity).
        rewrite E, csid_eq by assumption. cbn [same_cset]. unfold st; cbn [static_transcoder].
        rewrite Nat.eqb_refl. destruct (Nat.eqb_spec j i) as [->|]; [|reflexivity].
        assert (cs = cs') as -> by (cbn [is_cset] in *; congruence). reflexivity.
  Qed.
  Lemma has_from da c t s : has_member (o_find_from wchar4 wchar_signed (obj da c t) s) = false ->
    (exists i cs, c = Sb i cs) /\ (s = TChar16 \/ s = TChar32) \/ s = TChar32.
  Proof using All.
    unfold obj, object. destruct da; cbn [o_find_from].
    - destruct s; cbn; intros H; try discriminate. auto.
    - destruct c as [f|i cs], s; cbn; intros H; try discriminate; eauto 10.
  Qed.
  Lemma finder_2_ok da a A db b B : is_cset a -> is_cset b -> compatible a A -> compatible b B -> A <> TChar32 -> B <> TChar32 ->
    finder_2 wchar4 wchar_signed (obj da a A) (obj db b B) = st A a b.
  Proof using All.
    intros Ha Hb Ca Cb HA HB. unfold finder_2. rewrite !o_type_obj, !o_id_obj, o_find_to_obj, o_find_from_obj by assumption.
    unfold has_find_to, has_find_from.
    pose proof (find_to_ok a A b B Ha Hb Ca Cb HB) as HT. pose proof (find_from_ok a A b B Ha Hb Ca Cb HA) as HF.
    set (x := call_or_null (st_find_to wchar4 wchar_signed a A B) (csid_of b)) in *.
    set (y := call_or_null (st_find_from wchar4 wchar_signed b A) (csid_of a)) in *.
    assert (Hboth : (x = st A a b \/ x = None) /\ (y = st A a b \/ y = None) /\ (x = st A a b \/ y = st A a b)).
    { destruct HT as [HT|[HT (i & cs & ->)]], HF as [HF|[HF (j & cs' & ->)]]; auto.
      (* both single-byte: found by the first *)
      repeat split; auto. left. rewrite HT. unfold x in HT. clear -HT Ha Hb Cb. cbn [compatible] in Cb.
      assert (E : call_or_null (st_find_to wchar4 wchar_signed (Sb j cs') A B) (csid_of (Sb i cs)) =
          if csid_of (Sb i cs) =? csid_of (Sb j cs') then st A (Sb j cs') (Sb j cs') else None) by (destruct Cb as [-> | ->]; reflexivity).
      rewrite E, csid_eq in HT by assumption. cbn [same_cset] in HT. unfold st in *. cbn [static_transcoder] in *.
      rewrite Nat.eqb_refl in HT. rewrite Nat.eqb_sym. destruct (i =? j)%nat; [discriminate HT|reflexivity]. }
    destruct Hboth as (Hx & Hy & Hxy).
    destruct (has_member (o_find_from wchar4 wchar_signed (obj da a A) B)) eqn:M1,
             (has_member (o_find_from wchar4 wchar_signed (obj db b B) A)) eqn:M2.
    - destruct Hx as [-> | ->]; [destruct (st A a b); [reflexivity|]|]; destruct Hy as [Hy|Hy]; rewrite Hy; try reflexivity.
      destruct Hxy as [<-|<-]; [reflexivity|symmetry; exact Hy].
    - (* a single-byte, A one of char16_t / char32_t: impossible; else b single-byte and A is char16_t *)
      destruct (has_from _ _ _ _ M2) as [[(i & cs & ->) [E|E]]|E]; subst A; try congruence.
      destruct a as [f|j cs']; cbn [compatible] in Ca; [|destruct Ca; discriminate].
      cbn [form_of] in Ca. subst f. cbn [st static_transcoder] in *. unfold st in *; cbn [static_transcoder] in *. destruct Hx as [-> | ->]; reflexivity.
    - destruct (has_from _ _ _ _ M1) as [[(i & cs & ->) [E|E]]|E]; subst B; try congruence.
      destruct b as [f|j cs']; cbn [compatible] in Cb; [|destruct Cb; discriminate].
      cbn [form_of] in Cb. subst f. unfold st in *; cbn [static_transcoder] in *. destruct Hy as [-> | ->]; reflexivity.
    - destruct (has_from _ _ _ _ M1) as [[(i & cs & ->) [E|E]]|E]; subst B; try congruence.
      destruct (has_from _ _ _ _ M2) as [[(j & cs' & ->) [E|E]]|E]; subst A; try congruence.
      cbn [compatible] in Ca. destruct Ca; discriminate.
  Qed.
  Lemma compat32 c : compatible c TChar32 -> c = utf32.
  Proof. destruct c as [f|i cs]; cbn; [intros <-; reflexivity|intros [|]; discriminate]. Qed.
  Lemma finder_ok da a A db b B : is_cset a -> is_cset b -> compatible a A -> compatible b B ->
    finder wchar4 wchar_signed (obj da a A) (obj db b B) = st A a b.
  Proof using All.
    intros Ha Hb Ca Cb.
    destruct (ctype_eqb A TChar32) eqn:EA.
    { assert (A = TChar32) as -> by (destruct A; try discriminate; reflexivity). rewrite (compat32 a Ca). rewrite (compat32 a Ca) in *.
      unfold finder. rewrite !o_type_obj. destruct B; try (apply o_from_obj). rewrite (compat32 b Cb). reflexivity. }
    destruct (ctype_eqb B TChar32) eqn:EB.
    { assert (B = TChar32) as -> by (destruct B; try discriminate; reflexivity). rewrite (compat32 b Cb).
      unfold finder. rewrite !o_type_obj. destruct A; try discriminate EA; apply o_to_obj. }
    assert (HA : A <> TChar32) by (intros ->; discriminate). assert (HB : B <> TChar32) by (intros ->; discriminate).
    pose proof (finder_2_ok da a A db b B Ha Hb Ca Cb HA HB) as H2.
    unfold finder. rewrite !o_type_obj, !o_id_obj, csid_eq by assumption.
    assert (HS : same_cset a b = true -> o_sanitizer wchar_signed (obj da a A) = st A a b).
    { intros E. rewrite o_sanitizer_obj. rewrite (same_cset_eq a b Ha Hb E). reflexivity. }
    destruct A, B; try congruence; cbn [ctype_eqb]; try exact H2; destruct (same_cset a b); auto.
  Qed.
  Lemma find_ok da a A db b B : is_cset a -> is_cset b -> compatible a A -> compatible b B ->
    find_transcoder wchar4 wchar_signed (obj da a A) (obj db b B) = st A a b.
  Proof using All.
    intros Ha Hb Ca Cb. pose proof (finder_ok da a A db b B Ha Hb Ca Cb) as HF.
    unfold find_transcoder. unfold obj, object in *. destruct da, db; try exact HF.
    fold st. destruct (st A a b); [reflexivity|exact HF].
  Qed.
  Lemma direct_st t a b : option_map tc_func (st t a b) = direct a b.
  Proof using All. destruct a as [[]|i cs], b as [[]|j cs']; try reflexivity; unfold st; cbn; destruct (i =? j)%nat; reflexivity. Qed.
  Lemma direct_unsafe_st t a b : option_map tc_unsafe (st t a b) = direct_unsafe a b.
  Proof using All. destruct a as [[]|i cs], b as [[]|j cs']; try reflexivity; unfold st; cbn; destruct (i =? j)%nat; reflexivity. Qed.
  Lemma direct_unsafe_size_st t a b : option_map tc_unsafe_size (st t a b) = direct_unsafe_size a b.
  Proof using All. destruct a as [[]|i cs], b as [[]|j cs']; try reflexivity; unfold st; cbn; destruct (i =? j)%nat; reflexivity. Qed.
End Platform.
