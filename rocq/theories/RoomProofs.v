(* Operations on a destination whose buffer has room for all the text: only d_emit is used
   (d_recycle and d_do_write may be anything). *)
From Verif Require Import Base DestModel DestProofs TransSpec PivotModel PivotProofs.

(* [ok v]: the text v is within what the buffer can hold *)
Record room_laws {S} (ops : dest_ops S) (R : S -> list Z -> Prop) (ok : list Z -> Prop) : Prop := {
  room_good : forall s t, R s t -> d_good ops s = true;
  room_fits : forall s t u, R s t -> ok (t ++ u) <-> (length u <= d_space ops s)%nat;
  room_keeps : forall s t u, R s t -> (length u <= d_space ops s)%nat -> exists s', d_emit ops s u = Some s' /\ R s' (t ++ u) /\
    d_space ops s' = (d_space ops s - length u)%nat }.

(* no operation asks for more than what is still to be written *)
Definition need_of (o : op) (more : nat) : Prop :=
  match o with OReserve n _ => (n <= more)%nat | OFlush => False | OSeqFill _ seq => (1 <= length seq)%nat | _ => True end.
Fixpoint frugal (os : list op) : Prop :=
  match os with [] => True | o :: os' => need_of o (length (ops_text os)) /\ frugal os' end.
(* each operation asks for what it writes itself *)
Definition tight (o : op) : Prop :=
  match o with OReserve n u => (n <= length u)%nat | OFlush => False | OSeqFill _ seq => (1 <= length seq)%nat | _ => True end.
(* it asks ensure() for no more than the destination must have *)
Definition modest (o : op) : Prop := match o with OReserve n _ => (n <= 64)%nat | OFillAll n _ => 0 <= n | _ => True end.
Lemma wf_modest os : Forall op_wf os -> Forall modest os.
Proof. apply Forall_impl. intros o H. destruct o; cbn [op_wf modest] in *; auto; lia. Qed.
Lemma ops_text_cons o os : ops_text (o :: os) = op_text o ++ ops_text os.
Proof. reflexivity. Qed.
Lemma ops_text_app a b : ops_text (a ++ b) = ops_text a ++ ops_text b.
Proof. unfold ops_text. rewrite map_app, concat_app. reflexivity. Qed.
Lemma need_more o n m : need_of o n -> (n <= m)%nat -> need_of o m.
Proof. destruct o; cbn [need_of]; auto; lia. Qed.
Lemma tight_frugal os : Forall tight os -> frugal os.
Proof.
  induction 1 as [|o os Ho HF IH]; [exact I|]. split; [|exact IH]. rewrite ops_text_cons, app_length.
  destruct o; cbn [tight need_of op_text] in *; auto; lia.
Qed.
Lemma frugal_app a b : frugal a -> frugal b -> frugal (a ++ b).
Proof.
  induction a as [|o a IH]; [auto|]. intros [H1 H2] HB. cbn [app frugal]. split; [|auto].
  eapply need_more; [exact H1|]. change (o :: a ++ b) with ((o :: a) ++ b). rewrite ops_text_app, app_length. lia.
Qed.

Section Room.
Context {S : Type} (ops : dest_ops S) (R : S -> list Z -> Prop) (ok : list Z -> Prop) (L : room_laws ops R ok).

Lemma room_space s t u : R s t -> ok (t ++ u) -> (length u <= d_space ops s)%nat.
Proof. intros H K. apply (room_fits _ _ _ L s t u H), K. Qed.
Lemma room_cut s t u v : R s t -> ok (t ++ u ++ v) -> ok (t ++ u).
Proof. intros H K. apply (room_space s) in K; [|exact H]. apply (room_fits _ _ _ L s t u H). rewrite app_length in K. lia. Qed.
Lemma room_emit s t u : R s t -> ok (t ++ u) -> exists s', d_emit ops s u = Some s' /\ R s' (t ++ u).
Proof. intros H K. destruct (room_keeps _ _ _ L s t u H (room_space s t u H K)) as (s' & E & H' & _). eauto. Qed.
Lemma room_write s t u : R s t -> ok (t ++ u) -> exists s', write ops s u = Some s' /\ R s' (t ++ u).
Proof.
  intros H K. unfold write. destruct (Nat.ltb_spec 0 (length u)).
  - pose proof (room_space s t u H K). replace (length u <=? d_space ops s)%nat with true by (symmetry; apply Nat.leb_le; lia).
    apply room_emit; assumption.
  - destruct u; [|cbn in *; lia]. exists s. rewrite app_nil_r. auto.
Qed.
Lemma room_copy fuel s t u : R s t -> ok (t ++ u) -> (0 < fuel)%nat -> exists s', interchar_copy ops fuel s u = Some s' /\ R s' (t ++ u).
Proof.
  intros H K HF. destruct fuel as [|fuel]; [lia|]. cbn [interchar_copy]. destruct u as [|c u].
  - exists s. rewrite app_nil_r. auto.
  - pose proof (room_space s t _ H K). replace (length (c :: u) <=? d_space ops s)%nat with true by (symmetry; apply Nat.leb_le; lia).
    apply room_emit; assumption.
Qed.
Lemma room_op s t o more : R s t -> modest o -> need_of o (length (op_text o ++ more)) -> ok (t ++ op_text o ++ more) ->
  exists s', run_op ops s o = Some s' /\ R s' (t ++ op_text o).
Proof.
  intros H HM HN K0. assert (K : ok (t ++ op_text o)) by (eapply room_cut; eassumption).
  pose proof (room_space s t _ H K) as HS. pose proof (room_space s t _ H K0) as HS0.
  assert (HE : forall u, u = op_text o -> exists s', d_emit ops s u = Some s' /\ R s' (t ++ op_text o)) by (intros u ->; apply room_emit; assumption).
  destruct o as [c|u|m c|m u| |m seq|m c]; cbn [run_op op_text need_of modest] in *.
  - unfold put. cbn [length] in HS. destruct (Nat.eqb_spec (d_space ops s) 0); [lia|]. apply HE; reflexivity.
  - apply room_write; assumption.
  - unfold write_fill. rewrite repeat_length in HS. destruct (Z.ltb_spec 0 m).
    + replace (m <=? Z.of_nat (d_space ops s)) with true by lia. apply HE; reflexivity.
    + replace (Z.to_nat m) with 0%nat by lia. cbn [repeat]. exists s. rewrite app_nil_r. auto.
  - unfold ensure. destruct (Nat.ltb_spec 64 m); [lia|]. cbv zeta. replace (d_space ops s <? m)%nat with false by lia. replace (d_space ops s <? m)%nat with false by lia. cbn [obind]. apply HE; reflexivity.
  - destruct HN.
  - cbn [repeat_sequence]. rewrite concat_repeat_length in HS.
    assert (m <= Z.of_nat (d_space ops s) / Z.of_nat (length seq)) as Hm by (apply Z.div_le_lower_bound; nia).
    destruct (Z.ltb_spec (Z.of_nat (d_space ops s) / Z.of_nat (length seq)) m); [lia|].
    destruct (HE _ eq_refl) as (s1 & E1 & R1). rewrite E1. cbn [obind].
    destruct (Z.leb_spec m (Z.of_nat (d_space ops s) / Z.of_nat (length seq))); [|lia]. eauto.
  - rewrite repeat_length in HS. unfold fill_all. destruct (Z.ltb_spec m 0); [lia|]. cbn [fill_all_loop].
    destruct (Z.leb_spec m (Z.of_nat (d_space ops s))); [|lia]. apply HE; reflexivity.
Qed.
Lemma room_run os : forall s t, R s t -> Forall modest os -> frugal os -> ok (t ++ ops_text os) -> exists s', run ops s os = Some s' /\ R s' (t ++ ops_text os).
Proof.
  induction os as [|o os IH]; intros s t H HM HF K; cbn [run].
  - exists s. cbn. rewrite app_nil_r. auto.
  - destruct HF as [HN HF]. inversion HM as [|? ? M1 M2]; subst. rewrite ops_text_cons in *.
    destruct (room_op s t o (ops_text os) H M1 HN K) as (s1 & E1 & H1). rewrite E1. cbn [obind].
    rewrite app_assoc in K |- *. exact (IH s1 _ H1 M2 HF K).
Qed.

(* ---- transcoding ---- *)
Lemma room_transcode f fuel l s t : steps_of f l -> Forall nostop l -> R s t -> ok (t ++ outs l) -> (0 < fuel)%nat ->
  exists s' z, transcode_to_dest f ops fuel s (srcs l) = Some (s', z) /\ R s' (t ++ outs l).
Proof.
  intros HS HN H K HF. unfold transcode_to_dest. rewrite (room_good _ _ _ L s t H). cbn [negb]. destruct fuel as [|fuel]; [lia|].
  cbn [transcode_loop]. rewrite (proj1 HS [] l _ eq_refl) by lia. cbn [obind].
  pose proof (room_space s t _ H K) as Hs.
  rewrite full_big by (try (eapply steps_stop; exact HS); unfold zlen; lia).
  assert (E : full l = mk_tr [] (outs l) RCompleted (notes_of_steps l [])).
  { pose proof (full_app l [] HN) as E. rewrite app_nil_r in E. rewrite E. cbn. rewrite !app_nil_r. reflexivity. }
  rewrite E. cbn [r_out r_reason r_rest reason_eqb negb]. destruct (room_emit s t _ H K) as (s1 & E1 & H1). rewrite E1. cbn [obind]. eauto.
Qed.
Lemma nostop_full l : Forall nostop l -> full l = mk_tr [] (outs l) RCompleted (notes_of_steps l []).
Proof. intros HN. pose proof (full_app l [] HN) as E. rewrite app_nil_r in E. rewrite E. cbn. rewrite !app_nil_r. reflexivity. Qed.
Lemma room_outer P D E enc : encoding P E enc -> forall fuel l s t count, decoding P D l -> r_reason (full l) = RCompleted ->
  Forall nostop (map enc (r_out (full l))) ->
  R s t -> ok (t ++ outs (map enc (r_out (full l)))) -> (length l < fuel)%nat ->
  exists s' r, decode_encode_outer D E ops fuel s (srcs l) count = Some (s', r) /\ R s' (t ++ outs (map enc (r_out (full l)))).
Proof.
  intros HE. induction fuel as [|fuel IH]; intros l s t count HD HC HN H K HF; [lia|].
  destruct (dec_cut P D l pivot_size HD ltac:(unfold pivot_size; lia)) as (dn & td & El & Hn & Hlen & HDf & HP & HL & Hrest & Hout & Hre).
  cbn [decode_encode_outer]. rewrite HDf. cbn [obind]. set (dr := run_steps l pivot_size) in *.
  pose proof (full_app dn td Hn) as EF. rewrite <- El in EF. rewrite EF in HC, HN, K |- *. cbn [r_out r_reason] in *.
  rewrite map_app in HN, K |- *. apply Forall_app in HN as [HN1 HN2]. rewrite outs_app in K |- *.
  assert (K1 : ok (t ++ outs (map enc (outs dn)))) by (eapply room_cut; eassumption).
  pose proof (room_space s t _ H K1) as Hs.
  cbn [decode_encode_inner]. rewrite Hout. rewrite (proj1 HE) by (auto; lia). cbn [obind].
  rewrite full_big by (try (eapply encoding_stop; exact HE); unfold zlen; lia). rewrite (nostop_full _ HN1). cbn [r_out r_reason r_rest].
  destruct (room_emit s t _ H K1) as (s1 & E1 & H1). rewrite E1. cbn [obind reason_eqb]. rewrite app_assoc in K |- *.
  destruct (r_reason dr) eqn:ER; cbn [reason_eqb assert obind orb].
  - destruct Hre as [-> _]. cbn in K |- *. rewrite app_nil_r. eauto.
  - rewrite Hrest. apply IH; auto.
    + rewrite El in HD. eapply decoding_suffix; exact HD.
    + destruct Hre as (Hd16 & _). rewrite El, app_length in HF. unfold zlen, pivot_size in Hd16. lia.
  - exfalso. assert (r_reason (full l) = RInvalid) as X by (rewrite Hre; exact ER). rewrite EF in X. cbn in X. congruence.
  - contradiction.
Qed.
Lemma room_decode_encode P D E enc fuel l s t : encoding P E enc -> decoding P D l -> r_reason (full l) = RCompleted ->
  Forall nostop (map enc (r_out (full l))) ->
  R s t -> ok (t ++ outs (map enc (r_out (full l)))) -> (length l < fuel)%nat ->
  exists s' r, decode_encode_dest D E ops fuel s (srcs l) = Some (s', r) /\ R s' (t ++ outs (map enc (r_out (full l)))).
Proof.
  intros HE HD HC HN H K HF. unfold decode_encode_dest. rewrite (room_good _ _ _ L s t H). cbn [negb]. eapply room_outer; eassumption.
Qed.
End Room.
