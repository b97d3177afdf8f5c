(* Proofs about NoteModel. *)
From Verif Require Import Base DestModel DestProofs UtfSpec UtfModel UtfForms UtfLoop UtfDecode UtfTheorems TransSpec SbcsTables SbcsModel SbcsProofs PivotModel PivotProofs CsetModel CsetProofs PivotExact PrintModel NoteModel NoteSpec.

Lemma oot_refl {A} (l : list A) : once_or_twice l l.
Proof. induction l; constructor; assumption. Qed.
Lemma oot_app {A} (a a' b b' : list A) : once_or_twice a a' -> once_or_twice b b' -> once_or_twice (a ++ b) (a' ++ b').
Proof. intros H HB. induction H; cbn [app]; [exact HB|constructor 2|constructor 3]; assumption. Qed.
Lemma oot_filter {A} f (a b : list A) : once_or_twice a b -> once_or_twice (filter f a) (filter f b).
Proof. intros H. induction H; cbn [filter]; [constructor| |]; destruct (f x); try (constructor; assumption); assumption. Qed.
Lemma oot_bounds {A} (a b : list A) : once_or_twice a b -> (length a <= length b <= 2 * length a)%nat.
Proof. induction 1; cbn [length]; lia. Qed.

(* ---- forgetting the notifications ---- *)
Lemma loop_forget f {S} (ops : dest_ops S) : forall fuel s src count,
  option_map fst (transcode_loop_n f ops fuel s src count) = transcode_loop f ops fuel s src count.
Proof.
  induction fuel as [|fuel IH]; intros s src count; [reflexivity|]. cbn [transcode_loop_n transcode_loop].
  destruct (f src _) as [res|]; [|reflexivity]. cbn [obind]. destruct (d_emit ops s (r_out res)) as [s1|]; [|reflexivity]. cbn [obind].
  destruct (negb (reason_eqb (r_reason res) RInsufficient)); [reflexivity|]. destruct (negb (d_good ops (d_recycle ops s1))); [reflexivity|].
  rewrite <- IH. destruct (transcode_loop_n _ _ _ _ _ _); reflexivity.
Qed.
Lemma dest_forget f {S} (ops : dest_ops S) fuel s src :
  option_map fst (transcode_to_dest_n f ops fuel s src) = transcode_to_dest f ops fuel s src.
Proof. unfold transcode_to_dest_n, transcode_to_dest. destruct (negb (d_good ops s)); [reflexivity|apply loop_forget]. Qed.
Lemma inner_forget e {S} (ops : dest_ops S) : forall fuel s src sr it count,
  option_map fst (decode_encode_inner_n e ops fuel s src sr it count) = decode_encode_inner e ops fuel s src sr it count.
Proof.
  induction fuel as [|fuel IH]; intros s src sr it count; [reflexivity|]. cbn [decode_encode_inner_n decode_encode_inner].
  destruct (e it _) as [res|]; [|reflexivity]. cbn [obind]. destruct (d_emit ops s (r_out res)) as [s1|]; [|reflexivity]. cbn [obind].
  destruct (reason_eqb (r_reason res) RCompleted).
  - destruct (reason_eqb (r_reason sr) RInsufficient); [reflexivity|]. destruct (assert _); reflexivity.
  - destruct (reason_eqb (r_reason res) RInsufficient); [|destruct (assert _); reflexivity].
    destruct (negb (d_good ops (d_recycle ops s1))); [reflexivity|]. rewrite <- IH. destruct (decode_encode_inner_n _ _ _ _ _ _ _ _); reflexivity.
Qed.
Lemma outer_forget d e {S} (ops : dest_ops S) : forall fuel s src count,
  option_map fst (decode_encode_outer_n d e ops fuel s src count) = decode_encode_outer d e ops fuel s src count.
Proof.
  induction fuel as [|fuel IH]; intros s src count; [reflexivity|]. cbn [decode_encode_outer_n decode_encode_outer].
  destruct (d src pivot_size) as [sr|]; [|reflexivity]. cbn [obind]. rewrite <- inner_forget.
  destruct (decode_encode_inner_n _ _ _ _ _ _ _ _) as [[r n]|]; [|reflexivity]. cbn [obind option_map fst snd].
  destruct r as [s1 c1|s1 r1]; [|reflexivity]. rewrite <- IH. destruct (decode_encode_outer_n _ _ _ _ _ _ _); reflexivity.
Qed.
Lemma into_forget {S} (ops : dest_ops S) a b fl s src : option_map fst (transcode_into_n ops a b fl s src) = transcode_into ops a b fl s src.
Proof.
  unfold transcode_into_n, transcode_into. destruct (direct a b) as [func|].
  - rewrite <- dest_forget. destruct (transcode_to_dest_n _ _ _ _ _) as [[[s1 z] n]|]; reflexivity.
  - unfold decode_encode_dest_n, decode_encode_dest. destruct (negb (d_good ops s)); [reflexivity|apply outer_forget].
Qed.

Lemma notes_steps_app a b m : notes_of_steps (a ++ b) m = notes_of_steps a (b ++ m) ++ notes_of_steps b m.
Proof. induction a as [|x a IH]; [reflexivity|]. cbn [app notes_of_steps]. rewrite IH, <- !app_assoc. reflexivity. Qed.
Lemma note_twice s m p n : once_or_twice p n -> once_or_twice (note_of s m ++ p) (note_of s m ++ note_of s m ++ n).
Proof. intros H. unfold note_of. destruct (st_report s); cbn [app]; try exact H; constructor 3; exact H. Qed.
Lemma note_once s m p n : once_or_twice p n -> once_or_twice (note_of s m ++ p) (note_of s m ++ n).
Proof. intros H. apply oot_app; [apply oot_refl|exact H]. Qed.

Section Laws.
Context {S : Type} (ops : dest_ops S) (R : S -> list Z -> Prop) (pre : S -> Prop) (L : dest_laws ops R pre).

Lemma loop_notes f : forall fuel l s t count, steps_of f l -> Forall nostop l -> R s t ->
  (length l + (if (64 <=? d_space ops s)%nat then 1 else 2) <= fuel)%nat ->
  exists s' z n, transcode_loop_n f ops fuel s (srcs l) count = Some (s', z, n) /\ exists t', R s' t' /\
    exists p q, notes_of_steps l [] = p ++ q /\ once_or_twice p n /\
      (z_reason z = RCompleted /\ q = [] \/ z_reason z = RInsufficient /\ d_good ops s' = false) /\
      ((64 <= d_space ops s)%nat -> match l with [] => True | x :: more => exists p' n', p = note_of x more ++ p' /\ n = note_of x more ++ n' /\ once_or_twice p' n' end).
Proof.
  induction fuel as [|fuel IH]; intros l s t count HS HN HR HF; [destruct (_ <=? _)%nat in HF; lia|].
  cbn [transcode_loop_n]. pose proof HS as [HS1 HS2]. rewrite (HS1 [] l _ eq_refl) by lia. cbn [obind].
  destruct (run_cut l (steps_stop _ _ HS) (Z.of_nat (d_space ops s)) ltac:(lia)) as (dn & td & El & Hn & Hlen & Hrest & Hout & Hre).
  set (r := run_steps l (Z.of_nat (d_space ops s))) in *. rewrite Hout.
  destruct (law_emit _ _ _ L s t (outs dn) HR) as (s1 & E1 & R1 & _); [unfold zlen in Hlen; lia|]. rewrite E1. cbn [obind].
  destruct (r_reason r) eqn:ER; cbn [reason_eqb negb].
  - destruct Hre as [-> Hnotes]. rewrite app_nil_r in El. subst dn. eexists _, _, _. split; [reflexivity|]. exists (t ++ outs l). split; [exact R1|].
    exists (notes_of_steps l []), []. split; [rewrite app_nil_r; reflexivity|]. rewrite Hnotes. split; [apply oot_refl|].
    split; [left; auto|]. intros _. destruct l as [|x more]; [exact I|]. exists (notes_of_steps more []), (notes_of_steps more []).
    cbn [notes_of_steps]. rewrite app_nil_r. repeat split; apply oot_refl.
  - destruct Hre as (x & more & Etd & Nst & G & Hnotes).
    assert (EN : notes_of_steps l [] = notes_of_steps dn td ++ note_of x more ++ notes_of_steps more []).
    { rewrite El, Etd, notes_steps_app, app_nil_r. cbn [notes_of_steps]. rewrite app_nil_r. reflexivity. }
    assert (Hfirst : forall p' n', once_or_twice p' n' -> (64 <= d_space ops s)%nat ->
       match l with [] => True | y :: m => exists p1 n1, notes_of_steps dn td ++ p' = note_of y m ++ p1 /\ notes_of_steps dn td ++ n' = note_of y m ++ n1 /\ once_or_twice p1 n1 end).
    { intros p' n' HO H64. destruct l as [|y m]; [exact I|]. destruct dn as [|y' dn].
      - exfalso. cbn [app] in El. rewrite Etd in El. injection El as -> ->. apply Forall_inv in HS2 as [_ HS2]. change (zlen (outs [])) with 0 in G. lia.
      - cbn [app] in El. injection El as <- ->. cbn [notes_of_steps]. rewrite <- !app_assoc. eexists _, _. split; [reflexivity|]. split; [reflexivity|].
        apply oot_app; [apply oot_refl|exact HO]. }
    destruct (law_recycle _ _ _ L s1 _ R1) as [R2 H64].
    destruct (d_good ops (d_recycle ops s1)) eqn:EG; cbn [negb].
    + rewrite Hrest. rewrite El in HS, HN. apply steps_suffix in HS. apply Forall_app in HN as [_ HN].
      assert (HF' : (length td + (if (64 <=? d_space ops (d_recycle ops s1))%nat then 1 else 2) <= fuel)%nat).
      { destruct (Nat.leb_spec 64 (d_space ops (d_recycle ops s1))); [|lia]. rewrite El, app_length in HF.
        destruct (Nat.leb_spec 64 (d_space ops s)) as [Hb|Hb]; [|lia].
        destruct dn as [|y dn]; [|cbn [length] in HF; lia]. exfalso.
        rewrite Etd in El. cbn [app] in El. rewrite El in HS2. apply Forall_inv in HS2 as [_ HS2]. change (zlen (outs [])) with 0 in G. lia. }
      destruct (IH td (d_recycle ops s1) (t ++ outs dn) (count + zlen (outs dn)) HS HN R2 HF') as (s' & z & n & Ez & t' & HT & p & q & Ep & Ho & He & H64').
      rewrite Ez. cbn [obind fst snd]. rewrite Hnotes. eexists _, _, _. split; [reflexivity|]. exists t'. split; [exact HT|].
      rewrite Etd in Ep, H64'. destruct (H64' H64) as (p' & n' & Hp & Hn' & HO'). exists (notes_of_steps dn td ++ p), q.
      rewrite EN. cbn [notes_of_steps] in Ep. rewrite app_nil_r in Ep. rewrite Ep, app_assoc. split; [reflexivity|].
      assert (HO2 : once_or_twice p (note_of x more ++ n)) by (rewrite Hp, Hn'; apply note_twice; exact HO').
      rewrite <- app_assoc. split; [apply oot_app; [apply oot_refl|exact HO2]|]. split; [exact He|]. intros H. apply (Hfirst _ _ HO2 H).
    + eexists _, _, _. split; [reflexivity|]. exists (t ++ outs dn). split; [exact R2|].
      exists (notes_of_steps dn td ++ note_of x more), (notes_of_steps more []). rewrite EN, app_assoc, Hnotes. split; [reflexivity|].
      split; [apply oot_refl|]. split; [right; auto|]. intros H. apply (Hfirst _ _ (oot_refl _) H).
  - exfalso. destruct Hre as (x & more & Etd & Nst & _). subst td. rewrite El in HN. apply Forall_app in HN as [_ HN]. apply Forall_inv in HN. unfold nostop in HN. congruence.
  - exfalso. destruct Hre as (x & more & Etd & Nst & _). subst td. rewrite El in HN. apply Forall_app in HN as [_ HN]. apply Forall_inv in HN. unfold nostop in HN. congruence.
Qed.

Lemma dest_notes f fuel l s t : steps_of f l -> Forall nostop l -> R s t -> (length l + 2 <= fuel)%nat ->
  exists s' z n, transcode_to_dest_n f ops fuel s (srcs l) = Some (s', z, n) /\
    exists p q, notes_of_steps l [] = p ++ q /\ once_or_twice p n /\
      (z_reason z = RCompleted /\ q = [] \/ z_reason z = RInsufficient /\ d_good ops s' = false).
Proof.
  intros HS HN HR HF. unfold transcode_to_dest_n. destruct (d_good ops s) eqn:G; cbn [negb].
  - destruct (loop_notes f fuel l s t 0 HS HN HR) as (s' & z & n & E & t' & _ & p & q & H1 & H2 & H3 & _); [destruct (_ <=? _)%nat; lia|].
    exists s', z, n. split; [exact E|]. exists p, q. auto.
  - eexists _, _, _. split; [reflexivity|]. exists [], (notes_of_steps l []). split; [reflexivity|]. split; [constructor|]. right. auto.
Qed.
Lemma inner_loop e src sr : r_reason sr = RCompleted \/ r_reason sr = RInsufficient -> forall fuel s it c c2 s' z n,
  transcode_loop_n e ops fuel s it c = Some (s', z, n) -> z_reason z = RCompleted \/ z_reason z = RInsufficient ->
  exists r, decode_encode_inner_n e ops fuel s src sr it c2 = Some (r, n) /\
    (z_reason z = RCompleted /\ r_reason sr = RInsufficient /\ (exists c', r = INext s' c') \/
     z_reason z = RCompleted /\ r_reason sr = RCompleted /\ (exists x, r = IStop s' x /\ ds_reason x = RCompleted) \/
     z_reason z = RInsufficient /\ (exists x, r = IStop s' x /\ ds_reason x = RInsufficient)).
Proof.
  intros HSR. induction fuel as [|fuel IH]; intros s it c c2 s' z n HL Hz; [discriminate|].
  cbn [transcode_loop_n] in HL. cbn [decode_encode_inner_n]. destruct (e it _) as [res|]; [|discriminate]. cbn [obind] in *.
  destruct (d_emit ops s (r_out res)) as [s1|]; [|discriminate]. cbn [obind] in *.
  destruct (r_reason res) eqn:ER; cbn [reason_eqb negb] in *.
  - injection HL as <- <- <-. cbn [z_reason] in *. destruct HSR as [-> | ->]; cbn [reason_eqb orb assert obind].
    + eexists. split; [reflexivity|]. right. left. split; [reflexivity|]. split; [reflexivity|]. eexists. split; reflexivity.
    + eexists. split; [reflexivity|]. left. split; [reflexivity|]. split; [reflexivity|]. eexists. reflexivity.
  - destruct (negb (d_good ops (d_recycle ops s1))).
    + injection HL as <- <- <-. eexists. split; [reflexivity|]. right. right. split; [reflexivity|]. eexists. split; reflexivity.
    + destruct (transcode_loop_n _ _ _ _ _ _) as [[[s2 z2] n2]|] eqn:EL; [|discriminate]. cbn [obind fst snd] in HL. injection HL as <- <- <-.
      destruct (IH _ _ _ (c2 + zlen (r_out res)) _ _ _ EL Hz) as (r & Er & H). rewrite Er. cbn [obind fst snd]. eexists. split; [reflexivity|exact H].
  - injection HL as <- <- <-. cbn [z_reason] in Hz. destruct Hz; discriminate.
  - injection HL as <- <- <-. cbn [z_reason] in Hz. destruct Hz; discriminate.
Qed.
Lemma enc_steps_of P E enc us : encoding P E enc -> (forall c, zlen (st_out (enc c)) <= 64) -> Forall P us -> steps_of E (map enc us).
Proof.
  intros HE H64 HP. apply steps_of_map.
  - intros c. destruct HE as [_ HE]. destruct (HE c) as (H1 & H2 & _). split; [exact H1|]. split; [|apply H64].
    unfold real_stop. destruct H2 as [-> | ->]; exact I.
  - intros u sp [p ->] Hs. apply Forall_app in HP. apply HE; [apply HP|exact Hs].
Qed.
Lemma enc_notes_steps P E enc us rest : encoding P E enc -> filter is_unsupported (notes_of_steps (map enc us) rest) = notes_of_steps (map enc us) rest /\
  filter is_invalid (notes_of_steps (map enc us) rest) = [].
Proof.
  intros HE. assert (H : filter is_unsupported (notes_of_steps (map enc us) rest) = notes_of_steps (map enc us) rest).
  { induction us as [|c us IH]; [reflexivity|]. cbn [map notes_of_steps]. rewrite filter_app, IH. f_equal.
    destruct HE as [_ HE]. destruct (HE c) as (_ & _ & N). unfold note_of. destruct (st_report (enc c)); try reflexivity. congruence. }
  split; [exact H|]. apply filter_neg_none. exact H.
Qed.
Lemma oot_none {A} (f : A -> bool) l n : filter f l = [] -> once_or_twice l n -> filter f n = [].
Proof. intros H HO. apply (oot_filter f) in HO. rewrite H in HO. inversion HO. reflexivity. Qed.
Lemma filter_app_nil {A} (f : A -> bool) a b : filter f (a ++ b) = [] -> filter f a = [] /\ filter f b = [].
Proof. rewrite filter_app. apply app_eq_nil. Qed.
Lemma dec_step_free P l rest : Forall (fun s => (st_stop s = None \/ st_stop s = Some RInvalid) /\ (exists c, st_out s = [c] /\ P c) /\
                   forall c, st_report s <> ReportUnsupported c) l -> filter is_unsupported (notes_of_steps l rest) = [].
Proof.
  intros H. induction H as [|s l (_ & _ & H) HF IH]; [reflexivity|]. cbn [notes_of_steps]. rewrite filter_app, IH, app_nil_r.
  unfold note_of. destruct (st_report s); try reflexivity. exfalso. eapply H. reflexivity.
Qed.
Lemma outer_notes P D E enc : encoding P E enc -> (forall c, zlen (st_out (enc c)) <= 64) ->
  forall fuel l s t count, decoding P D l -> Forall nostop l -> Forall nostop (map enc (outs l)) -> R s t -> (length l < fuel)%nat ->
  exists s' z n, decode_encode_outer_n D E ops fuel s (srcs l) count = Some (s', z, n) /\
    exists pi qi pu qu, notes_of_steps l [] = pi ++ qi /\ notes_of_steps (map enc (outs l)) [] = pu ++ qu /\
      once_or_twice pi (filter is_invalid n) /\ once_or_twice pu (filter is_unsupported n) /\
      (ds_reason z = RCompleted /\ qi = [] /\ qu = [] \/ ds_reason z = RInsufficient /\ d_good ops s' = false) /\
      match l with [] => True | x :: more => exists p' n', pi = note_of x more ++ p' /\ filter is_invalid n = note_of x more ++ n' /\ once_or_twice p' n' end.
Proof.
  intros HE H64. induction fuel as [|fuel IH]; intros l s t count HD HN HNE HR HF; [lia|].
  destruct (dec_cut P D l pivot_size HD ltac:(unfold pivot_size; lia)) as (dn & td & El & Hn & Hlen & HDf & HP & HL & Hrest & Hout & Hre).
  cbn [decode_encode_outer_n]. rewrite HDf. cbn [obind].
  assert (HND : r_reason (run_steps l pivot_size) = RCompleted -> r_notes (run_steps l pivot_size) = notes_of_steps l []).
  { intros X. destruct (run_cut l (decoding_stop _ _ _ HD) pivot_size ltac:(unfold pivot_size; lia)) as (d2 & t2 & E2 & _ & _ & _ & _ & H2).
    rewrite X in H2. destruct H2 as [-> H2]. rewrite app_nil_r in E2. subst d2. exact H2. }
  assert (HRN : filter is_unsupported (r_notes (run_steps l pivot_size)) = []) by (eapply dec_notes_free; apply HD).
  set (dr := run_steps l pivot_size) in *.
  assert (HND2 : Forall nostop (map enc (outs dn))).
  { rewrite El, outs_app, map_app in HNE. apply Forall_app in HNE. apply HNE. }
  destruct (loop_notes E (Datatypes.S (Datatypes.S (length (r_out dr)))) (map enc (outs dn)) s t 0 (enc_steps_of P E enc _ HE H64 HP) HND2 HR)
    as (s1 & z1 & n1 & E1 & t1 & R1 & p1 & q1 & N1 & O1 & F1 & _).
  { rewrite map_length, Hout. destruct (_ <=? _)%nat; lia. }
  rewrite (encoding_srcs _ _ _ _ HE) in E1. rewrite <- Hout in E1.
  destruct (enc_notes_steps P E enc (outs dn) [] HE) as [EU EI]. rewrite N1 in EI.
  apply filter_app_nil in EI as [EI _]. pose proof (oot_none _ _ _ EI O1) as EI1.
  assert (EU1 : filter is_unsupported n1 = n1).
  { clear -EI1. induction n1 as [|x n IH]; [reflexivity|]. cbn in *. unfold is_invalid in EI1. destruct (is_unsupported x); [|discriminate].
    cbn in EI1. f_equal. apply IH. exact EI1. }
  assert (SR : r_reason dr = RCompleted \/ r_reason dr = RInsufficient).
  { unfold dr in *. clear -HN Hre El HD. destruct (r_reason (run_steps l pivot_size)) eqn:X; auto; [|contradiction].
    exfalso. destruct (run_cut l (decoding_stop _ _ _ HD) pivot_size ltac:(unfold pivot_size; lia)) as (d2 & t2 & E2 & _ & _ & _ & _ & H2).
    rewrite X in H2. destruct H2 as (y & more & -> & N & _). rewrite E2 in HN. apply Forall_app in HN as [_ HN]. apply Forall_inv in HN. unfold nostop in HN. congruence. }
  destruct (inner_loop E (srcs l) dr SR (Datatypes.S (Datatypes.S (length (r_out dr)))) s (r_out dr) 0 count s1 z1 n1 E1) as (r & Er & Hr);
    [destruct F1 as [[? _]|[? _]]; auto|].
  rewrite Er. cbn [obind fst snd].
  assert (HI1 : filter is_invalid (r_notes dr ++ n1) = r_notes dr) by (rewrite filter_app, EI1, app_nil_r; apply filter_neg_all; exact HRN).
  assert (HU1 : filter is_unsupported (r_notes dr ++ n1) = n1) by (rewrite filter_app, HRN, EU1; reflexivity).
  (* what was looked at by the decoder *)
  assert (HP1 : exists pi qi, notes_of_steps l [] = pi ++ qi /\ r_notes dr = pi /\ (r_reason dr = RCompleted -> qi = []) /\
     match l with [] => True | x :: more => exists p', pi = note_of x more ++ p' end).
  { destruct SR as [SR|SR].
    - rewrite (HND SR). exists (notes_of_steps l []), []. rewrite app_nil_r. repeat split. destruct l as [|x more]; [exact I|].
      cbn [notes_of_steps]. rewrite app_nil_r. eexists. reflexivity.
    - rewrite SR in Hre. destruct Hre as (Hd16 & y & more & Etd & Ny & Hnotes). exists (notes_of_steps dn td ++ note_of y more), (notes_of_steps more []).
      rewrite El, Etd, notes_steps_app, app_nil_r. cbn [notes_of_steps]. rewrite app_nil_r, app_assoc, <- Etd. split; [reflexivity|]. split; [exact Hnotes|]. split; [congruence|].
      destruct dn as [|d0 dn]; [unfold zlen, pivot_size in Hd16; cbn in Hd16; lia|]. rewrite Etd. cbn [app notes_of_steps]. rewrite <- !app_assoc. eexists. reflexivity. }
  destruct HP1 as (pi & qi & N2 & NP & NQ & NF).
  assert (Stop : forall x, r = IStop s1 x -> (ds_reason x = RCompleted /\ z_reason z1 = RCompleted /\ r_reason dr = RCompleted \/ ds_reason x = RInsufficient /\ d_good ops s1 = false) ->
     exists s' z n, match r with INext a b => do r2 <- decode_encode_outer_n D E ops fuel a (r_rest dr) b ; Some (fst r2, (r_notes dr ++ n1) ++ snd r2)
                    | IStop a b => Some (a, b, r_notes dr ++ n1) end = Some (s', z, n) /\
    exists pi qi pu qu, notes_of_steps l [] = pi ++ qi /\ notes_of_steps (map enc (outs l)) [] = pu ++ qu /\
      once_or_twice pi (filter is_invalid n) /\ once_or_twice pu (filter is_unsupported n) /\
      (ds_reason z = RCompleted /\ qi = [] /\ qu = [] \/ ds_reason z = RInsufficient /\ d_good ops s' = false) /\
      match l with [] => True | x :: more => exists p' n', pi = note_of x more ++ p' /\ filter is_invalid n = note_of x more ++ n' /\ once_or_twice p' n' end).
  { intros x -> HX. eexists _, _, _. split; [reflexivity|]. exists pi, qi, p1, (q1 ++ notes_of_steps (map enc (outs td)) []).
    rewrite HI1, HU1, NP. split; [exact N2|]. split.
    { rewrite El, outs_app, map_app, notes_steps_app, app_nil_r, app_assoc, <- N1. f_equal. eapply enc_notes. exact HE. }
    split; [apply oot_refl|]. split; [exact O1|]. split.
    - destruct HX as [(X1 & X2 & X3)|X]; [left|right; exact X]. split; [exact X1|]. split; [apply NQ; exact X3|].
      destruct F1 as [[_ ->]|[F1 _]]; [|congruence]. rewrite X3 in Hre. destruct Hre as [-> _]. reflexivity.
    - destruct l as [|y m]; [exact I|]. destruct NF as [p' ->]. exists p', p'. split; [reflexivity|]. split; [reflexivity|apply oot_refl]. }
  destruct Hr as [(Z1 & Z2 & c' & ->)|[(Z1 & Z2 & x & Hx & Z3)|(Z1 & x & Hx & Z3)]].
  2:{ apply (Stop x Hx). left. auto. }
  2:{ apply (Stop x Hx). right. split; [exact Z3|]. destruct F1 as [[F1 _]|[_ F1]]; [congruence|exact F1]. }
  clear Stop NP NQ NF N2. rewrite Z2 in Hre. destruct Hre as (Hd16 & y & more & Etd & Ny & Hnotes).
  assert (HD' : decoding P D td) by (rewrite El in HD; eapply decoding_suffix; exact HD).
  rewrite Hrest. destruct (IH td s1 t1 c' HD') as (s2 & z & n & Ez & pi2 & qi2 & pu & qu & I1 & I2 & I3 & I4 & I5 & I6).
  { rewrite El in HN. apply Forall_app in HN. apply HN. }
  { rewrite El, outs_app, map_app in HNE. apply Forall_app in HNE. apply HNE. }
  { exact R1. } { rewrite El, app_length in HF. unfold zlen, pivot_size in Hd16. lia. }
  rewrite Ez. cbn [obind fst snd]. eexists _, _, _. split; [reflexivity|].
  destruct F1 as [[_ ->]|[F1 _]]; [|congruence]. rewrite app_nil_r in N1.
  exists (notes_of_steps dn td ++ pi2), qi2, (p1 ++ pu), qu.
  rewrite !filter_app, <- !filter_app. rewrite (filter_app is_invalid), (filter_app is_unsupported), HI1, HU1, Hnotes.
  split; [rewrite El, notes_steps_app, app_nil_r, I1, app_assoc; reflexivity|].
  split; [rewrite El, outs_app, map_app, notes_steps_app, app_nil_r, <- app_assoc, <- I2, <- N1; f_equal; eapply enc_notes; exact HE|].
  rewrite Etd in I6. destruct I6 as (p' & n' & Hp & Hn' & HO').
  assert (HO2 : once_or_twice pi2 (note_of y more ++ filter is_invalid n)) by (rewrite Hp, Hn'; apply note_twice; exact HO').
  rewrite <- (app_assoc (notes_of_steps dn td)).
  split; [apply oot_app; [apply oot_refl|exact HO2]|]. split; [apply oot_app; [exact O1|exact I4]|]. split; [exact I5|].
  destruct l as [|y0 m]; [exact I|]. destruct dn as [|d0 dn]; [unfold zlen, pivot_size in Hd16; cbn in Hd16; lia|].
  cbn [app] in El. injection El as <- ->. cbn [notes_of_steps]. rewrite <- !app_assoc. eexists _, _. split; [reflexivity|]. split; [reflexivity|].
  apply oot_app; [apply oot_refl|exact HO2].
Qed.
Lemma de_dest_notes P D E enc fuel l s t : encoding P E enc -> (forall c, zlen (st_out (enc c)) <= 64) ->
  decoding P D l -> Forall nostop l -> Forall nostop (map enc (outs l)) -> R s t -> (length l < fuel)%nat ->
  exists s' z n, decode_encode_dest_n D E ops fuel s (srcs l) = Some (s', z, n) /\
    exists pi qi pu qu, notes_of_steps l [] = pi ++ qi /\ notes_of_steps (map enc (outs l)) [] = pu ++ qu /\
      once_or_twice pi (filter is_invalid n) /\ once_or_twice pu (filter is_unsupported n) /\
      (ds_reason z = RCompleted /\ qi = [] /\ qu = [] \/ ds_reason z = RInsufficient /\ d_good ops s' = false).
Proof.
  intros HE H64 HD HN HNE HR HF. unfold decode_encode_dest_n. destruct (d_good ops s) eqn:G; cbn [negb].
  - destruct (outer_notes P D E enc HE H64 fuel l s t 0 HD HN HNE HR HF) as (s' & z & n & Ez & pi & qi & pu & qu & I1 & I2 & I3 & I4 & I5 & _).
    exists s', z, n. split; [exact Ez|]. exists pi, qi, pu, qu. auto 10.
  - eexists _, _, _. split; [reflexivity|]. eexists [], _, [], _. split; [reflexivity|]. split; [reflexivity|]. split; [constructor|]. split; [constructor|]. right. auto.
Qed.
End Laws.

(* ---- the steps and the reports ---- *)
Definition read_of (f : form) (it : item) : list Z * option Z := (src_of (enc_of f) it, match it with Good c => Some c | Bad _ => None end).
Lemma read_srcs f its : concat (map fst (map (read_of f) its)) = srcs_of (enc_of f) its.
Proof. induction its as [|x l IH]; [reflexivity|]. cbn [map concat read_of fst]. rewrite IH. reflexivity. Qed.
Lemma items_reports f g stop its : notes_of_steps (item_steps f g stop its) [] = reports (fun _ => true) (map (read_of f) its).
Proof.
  induction its as [|it its IH]; [reflexivity|]. cbn [item_steps map notes_of_steps]. fold (item_steps f g stop its). rewrite IH, app_nil_r, note_item.
  destruct it as [c|b]; [reflexivity|]. cbn [map reports lift_note fst snd app]. unfold read_of at 2. cbn [reports fst src_of]. rewrite read_srcs. reflexivity.
Qed.
Definition unit_read (cs : sbcs) (c : Z) : list Z * option Z := ([c], match sb_decode cs c with Some 0xFFFD => None | x => x end).
Lemma unit_srcs cs src : concat (map fst (map (unit_read cs) src)) = src.
Proof. induction src as [|x l IH]; [reflexivity|]. cbn [map concat unit_read fst app]. rewrite IH. reflexivity. Qed.
Lemma unit_cases cs i c : nth_error all_sbcs i = Some cs -> 0 <= c < 256 ->
  unit_read cs c = ([c], if decoded cs c =? 0xFFFD then None else Some (decoded cs c)).
Proof.
  intros HC Hc. unfold unit_read. rewrite (decode_some cs _ (all_ok i cs HC) c Hc). f_equal.
  destruct (Z.eqb_spec (decoded cs c) 0xFFFD) as [->|N]; [reflexivity|].
  destruct (decoded cs c) as [|q|q]; try reflexivity. do 16 (destruct q as [q|q|]; try reflexivity). exfalso. apply N. reflexivity.
Qed.
Lemma units_reports cs i (st : Z -> step) can src : nth_error all_sbcs i = Some cs -> Forall (fun c => 0 <= c < 256) src ->
  (forall c, st_src (st c) = [c] /\ st_report (st c) = if decoded cs c =? 0xFFFD then ReportInvalid else NoReport) ->
  (forall c, 0 <= c < 256 -> decoded cs c <> 0xFFFD -> can (decoded cs c) = true) ->
  notes_of_steps (map st src) [] = reports can (map (unit_read cs) src).
Proof.
  intros HC HU HS HCan. induction HU as [|c src Hc HF IH]; [reflexivity|]. cbn [map notes_of_steps]. rewrite IH, app_nil_r, (unit_cases _ _ _ HC Hc).
  destruct (HS c) as [H1 H2]. unfold note_of. rewrite H1, H2. rewrite (srcs_units st) by (intros x; apply HS).
  destruct (Z.eqb_spec (decoded cs c) 0xFFFD) as [E|N]; cbn [reports app]; [rewrite unit_srcs; reflexivity|rewrite HCan by assumption; reflexivity].
Qed.
Lemma can_supports cs i c : nth_error all_sbcs i = Some cs -> 0 <= c -> can_encode (Sb i cs) c = supports cs c.
Proof.
  intros HC Hc. cbn [can_encode]. unfold supports, encoded. destruct (so_enc _ _ (all_ok i cs HC) c Hc) as (e & E & _). rewrite E. reflexivity.
Qed.
Lemma supports_fffd cs i : nth_error all_sbcs i = Some cs -> supports cs 0xFFFD = true.
Proof. intros HC. unfold supports, encoded. rewrite (so_fffd _ _ (all_ok i cs HC)). reflexivity. Qed.
Lemma supports_decoded cs i c : nth_error all_sbcs i = Some cs -> 0 <= c < 256 -> decoded cs c <> 0xFFFD -> supports cs (decoded cs c) = true.
Proof. intros HC Hc N. unfold supports. rewrite (encoded_decoded cs _ (all_ok i cs HC) c Hc N). lia. Qed.
(* UTF-32 units *)
Lemma items32_units lax src its : units 32 src -> items enc32 lax src its ->
  Forall2 (fun c it => it = Good c /\ valid_cp lax c \/ it = Bad [c] /\ ~ valid_cp lax c) src its.
Proof.
  intros HU HI. induction HI as [|cp rest its0 HV HL HI0 IH|bad rest its0 HUn HMx HI0 IH].
  - constructor.
  - cbn [enc32 app] in *. constructor; [left; auto|]. apply IH. apply units_cons in HU. apply HU.
  - assert (length bad = 1%nat) as HB.
    { destruct HMx as (_ & [N|[N (cp & _ & [w Hw])]] & _); [exact N|]. cbn in Hw.
      destruct bad as [|x [|y b]]; [congruence|reflexivity|discriminate]. }
    destruct bad as [|x [|y b]]; try discriminate. cbn [app] in *. constructor.
    + right. split; [reflexivity|]. intros HV. apply (HUn x HV). exists rest. reflexivity.
    + apply IH. apply units_cons in HU. apply HU.
Qed.
Lemma misread_fst a b lax rs : map fst (map (misread a b lax) rs) = map fst rs.
Proof.
  rewrite map_map. apply map_ext. intros [u o]. unfold misread. destruct a as [[]|], b, lax, o; cbn [snd fst]; try reflexivity.
  destruct (_ && _); reflexivity.
Qed.
Lemma misread_id a b lax rs : (a = Utf U32 -> (exists i cs, b = Sb i cs) -> lax = false ->
    Forall (fun r => match snd r with Some c => 0xE000 <= c <= 0xFFFF -> can_encode b c = true | None => True end) rs) ->
  map (misread a b lax) rs = rs.
Proof.
  intros H. rewrite <- (map_id rs) at 2. apply map_ext_in. intros [u o] Hin. unfold misread.
  destruct a as [[]|ia csa], b as [|i cs], lax, o as [c|]; cbn [snd fst]; try reflexivity.
  specialize (H eq_refl ltac:(eauto) eq_refl). rewrite Forall_forall in H. specialize (H _ Hin). cbn [snd] in H.
  destruct (Z.leb_spec 0xE000 c); [|reflexivity]. destruct (Z.leb_spec c 0xFFFF); [|reflexivity]. rewrite H by lia. reflexivity.
Qed.
Lemma from_reports cs i fl src its : nth_error all_sbcs i = Some cs -> units 32 src -> items enc32 (f_lax fl) src its ->
  notes_of_steps (map (from_step cs fl) src) [] =
  reports (can_encode (Sb i cs)) (map (misread (Utf U32) (Sb i cs) (f_lax fl)) (map (read_of U32) its)).
Proof.
  intros HC HU HI. pose proof (items32_units _ _ _ HU HI) as H2. clear HI.
  induction H2 as [|c it src its Hc HF IH]; [reflexivity|].
  apply units_cons in HU as [Hu HU]. cbn [map notes_of_steps]. rewrite app_nil_r, IH by assumption.
  assert (Hrest : srcs (map (from_step cs fl) src) =
    concat (map fst (map (misread (Utf U32) (Sb i cs) (f_lax fl)) (map (read_of U32) its)))).
  { rewrite srcs_units by reflexivity. rewrite misread_fst, read_srcs. clear -HF. induction HF as [|c it src its H HF IH]; [reflexivity|].
    cbn [srcs_of flat_map]. fold (srcs_of (enc_of U32) its). rewrite <- IH. destruct H as [[-> _]|[-> _]]; reflexivity. }
  unfold note_of. cbn [from_step st_report st_src]. rewrite Hrest. destruct Hc as [[-> Hv]|[-> Hv]].
  - change (read_of U32 (Good c)) with ([c], Some c). pose proof (can_supports cs i c HC ltac:(destruct Hv; lia)) as HCS.
    assert (EM : misread (Utf U32) (Sb i cs) (f_lax fl) ([c], Some c) =
      if negb (supports cs c) && from_invalid fl c then ([c], None) else ([c], Some c)).
    { unfold misread. cbn [snd fst]. rewrite HCS. unfold from_invalid. destruct Hv as [Hr Hs]. replace (0x110000 <=? c) with false by lia. cbn [orb].
      unfold f_strict. destruct (f_lax fl) eqn:EQ; cbn [negb andb]; [rewrite andb_false_r; reflexivity|].
      destruct Hs as [Hs|Hs]; [discriminate|]. unfold is_surr in Hs.
      replace ((0xD800 <=? c) && (c <=? 0xFFFF)) with ((0xE000 <=? c) && (c <=? 0xFFFF)) by lia. rewrite andb_comm. reflexivity. }
    rewrite EM. destruct (supports cs c) eqn:ES; cbn [negb andb]; [cbn [reports]; rewrite HCS; reflexivity|].
    destruct (from_invalid fl c); cbn [negb reports]; [reflexivity|rewrite HCS; reflexivity].
  - change (read_of U32 (Bad [c])) with ([c], @None Z).
    replace (misread (Utf U32) (Sb i cs) (f_lax fl) ([c], None)) with ([c], @None Z) by (unfold misread; cbn [snd]; destruct (f_lax fl); reflexivity).
    cbn [reports fst].
    assert (ES : supports cs c = false).
    { destruct (supports cs c) eqn:ES; [|reflexivity]. exfalso.
      destruct (supports_small cs _ (all_ok i cs HC) c ltac:(lia) ES) as [X|[X|X]].
      - apply Hv. split; [lia|]. right. unfold is_surr. lia.
      - apply Hv. rewrite X. apply valid_FFFD.
      - pose proof (exceptions_small i) as XS. rewrite Forall_forall in XS. specialize (XS c X). apply Hv. split; [lia|]. right. unfold is_surr. lia. }
    rewrite ES. cbn [negb andb].
    assert (EF : from_invalid fl c = true).
    { unfold from_invalid. destruct (Z.leb_spec 0x110000 c); [reflexivity|]. cbn [orb]. unfold f_strict. destruct (f_lax fl) eqn:EQ.
      - exfalso. apply Hv. split; [lia|]. left. reflexivity.
      - cbn [negb andb]. destruct (is_surr c) eqn:EQ2; [unfold is_surr in EQ2; lia|]. exfalso. apply Hv. split; [lia|]. right. exact EQ2. }
    rewrite EF. reflexivity.
Qed.

(* ---- the two ways of transcoding: the steps, and what they report ---- *)
Definition plain (fl : flags) : Prop := f_stop_invalid fl = false /\ f_stop_unsupported fl = false.
Lemma enc_reports b fl can rs : is_cset b -> can = can_encode b -> Forall (fun r => match snd r with Some c => 0 <= c | None => True end) rs ->
  notes_of_steps (map (enc_step_of b fl) (map (fun r => match snd r with Some c => c | None => 0xFFFD end) rs)) [] =
  unsupported_only (reports can rs).
Proof.
  intros HB -> HR. induction HR as [|[u o] rs Hr HF IH]; [reflexivity|]. cbn [map notes_of_steps]. rewrite app_nil_r, IH. cbn [snd] in *.
  destruct o as [c|]; cbn [reports]; unfold unsupported_only; [rewrite filter_app|cbn [filter]].
  - f_equal. destruct b as [g|i cs]; [reflexivity|]. rewrite (can_supports cs i c HB Hr). unfold note_of. cbn [enc_step_of from_unsafe_step st_report].
    destruct (supports cs c); reflexivity.
  - destruct b as [g|i cs]; [reflexivity|]. unfold note_of. cbn [enc_step_of from_unsafe_step st_report]. rewrite (supports_fffd cs i HB). reflexivity.
Qed.
Lemma invalid_reports can rs : invalid_only (reports can rs) = reports (fun _ => true) rs.
Proof.
  induction rs as [|[u [c|]] rs IH]; [reflexivity| |].
  - cbn [reports app]. unfold invalid_only in *. rewrite filter_app, IH. destruct (can c); reflexivity.
  - cbn [reports]. unfold invalid_only in *. cbn [filter]. rewrite IH. reflexivity.
Qed.
Lemma is_invalid_only l : filter is_invalid l = invalid_only l.
Proof. unfold is_invalid, invalid_only. induction l as [|[? ?|?] l IH]; cbn in *; rewrite ?IH; reflexivity. Qed.
Lemma is_unsupported_only l : filter is_unsupported l = unsupported_only l.
Proof. unfold unsupported_only. induction l as [|[? ?|?] l IH]; cbn in *; rewrite ?IH; reflexivity. Qed.

Lemma decoding_reports a fl src rs : is_cset a -> unit_text a src -> plain fl -> reads a (f_lax fl) src rs ->
  exists l, srcs l = src /\ (length l <= length src)%nat /\ decoding (valid_cp (f_lax fl)) (to_u32_of a fl) l /\ Forall nostop l /\
    notes_of_steps l [] = reports (fun _ => true) rs /\ outs l = map (fun r => match snd r with Some c => c | None => 0xFFFD end) rs.
Proof.
  destruct a as [f|i cs]; intros HC HU [HS1 HS2] HT; cbn [reads] in HT.
  - destruct HT as (its & HI & ->). change (map _ its) with (map (read_of f) its). exists (item_steps f U32 (f_stop_invalid fl) its).
    destruct (utf_decoding f fl src its HU HI) as [H1 H2]. split; [exact H1|].
    split; [unfold item_steps; rewrite map_length; eapply items_length_of; exact HI|]. split; [exact H2|]. split; [|split].
    + apply Forall_map. apply Forall_forall. intros it _. unfold nostop. cbn [item_step st_stop]. rewrite HS1, andb_false_r. reflexivity.
    + apply items_reports.
    + rewrite outs_items, map_map. clear. induction its as [|it its IH]; [reflexivity|].
      change (outs_of (enc_of U32) (it :: its)) with (out_of (enc_of U32) it ++ outs_of (enc_of U32) its). rewrite IH. destruct it; reflexivity.
  - subst rs. change (map _ src) with (map (unit_read cs) src). exists (map (to_step cs fl) src). destruct (sb_decoding i cs fl src HC HU) as [H1 H2]. split; [exact H1|].
    split; [rewrite map_length; lia|]. split; [exact H2|]. split; [|split].
    + apply Forall_map. apply Forall_forall. intros it _. unfold nostop. cbn [to_step st_stop]. rewrite HS1, andb_false_r. reflexivity.
    + apply (units_reports cs i); [exact HC|exact HU| |reflexivity]. intros c. split; reflexivity.
    + change (Forall (fun c => 0 <= c < 256) src) in HU. clear H1 H2. induction HU as [|c src Hc HF IH]; [reflexivity|]. cbn [map].
      rewrite outs_cons, IH, (unit_cases cs i c HC Hc). cbn [to_step st_out snd app]. destruct (Z.eqb_spec (decoded cs c) 0xFFFD) as [->|]; reflexivity.
Qed.
Lemma direct_reports a b func fl src rs : is_cset a -> is_cset b -> direct a b = Some func -> unit_text a src -> plain fl ->
  reads a (f_lax fl) src rs ->
  exists l, srcs l = src /\ (length l <= length src)%nat /\ steps_of (func fl) l /\ Forall nostop l /\
    notes_of_steps l [] = reports (can_encode b) (map (misread a b (f_lax fl)) rs).
Proof.
  intros HA HB HD HU [HS1 HS2] HT. destruct a as [f|i cs], b as [g|j cs']; cbn [reads] in HT.
  - rewrite misread_id by (intros _ (? & ? & X); discriminate X). assert (func = fun fl src sp => option_map lift (transcode_of f g (f_lax fl) (f_stop_invalid fl) src sp)) as -> by (destruct f; injection HD as <-; reflexivity).
    destruct HT as (its & HI & ->). change (map _ its) with (map (read_of f) its). exists (item_steps f g (f_stop_invalid fl) its).
    split; [rewrite srcs_items; symmetry; apply (items_src _ _ _ _ HI)|]. split; [unfold item_steps; rewrite map_length; eapply items_length_of; exact HI|].
    split; [split|split].
    + intros p q sp E Hs. unfold item_steps in E. apply map_eq_app in E as (p' & s & -> & <- & <-).
      fold (item_steps f g (f_stop_invalid fl) s). rewrite srcs_items.
      apply transcode_run; [eapply units_srcs; eassumption|exact Hs|eapply items_suffix; exact HI].
    + apply Forall_map. apply Forall_forall. intros it _. split.
      * unfold real_stop. cbn [item_step st_stop]. destruct (is_bad it && f_stop_invalid fl); exact I.
      * cbn [item_step st_out]. destruct it; cbn [out_of]; [pose proof (enc_of_len g cp)|pose proof (enc_of_len g 0xFFFD)]; lia.
    + apply Forall_map. apply Forall_forall. intros it _. unfold nostop. cbn [item_step st_stop]. rewrite HS1, andb_false_r. reflexivity.
    + apply items_reports.
  - destruct f; cbn [direct] in HD; try discriminate. injection HD as <-. destruct HT as (its & HI & ->). change (map _ its) with (map (read_of U32) its).
    exists (map (from_step cs' fl) src).
    split; [apply srcs_units; reflexivity|]. split; [rewrite map_length; lia|]. split; [|split].
    + apply steps_of_map.
      * intros c. split; [reflexivity|]. split; [|cbn; lia]. unfold real_stop. cbn [from_step st_stop].
        destruct (_ && f_stop_unsupported fl); [exact I|]. destruct (_ && f_stop_invalid fl); exact I.
      * intros s sp [p ->] Hs. apply Forall_app in HU. apply (from_u32_steps cs' _ (all_ok j cs' HB)); [apply HU|exact Hs].
    + apply Forall_map. apply Forall_forall. intros c _. unfold nostop. cbn [from_step st_stop]. rewrite HS1, HS2, !andb_false_r. reflexivity.
    + apply from_reports; [exact HB|exact HU|exact HI].
  - rewrite misread_id by (intros X; discriminate X). destruct g; cbn [direct] in HD; try discriminate. injection HD as <-. subst rs. change (map _ src) with (map (unit_read cs) src). exists (map (to_step cs fl) src).
    split; [apply srcs_units; reflexivity|]. split; [rewrite map_length; lia|]. split; [|split].
    + apply steps_of_map.
      * intros c. split; [reflexivity|]. split; [|cbn; lia]. unfold real_stop. cbn [to_step st_stop].
        destruct (_ && f_stop_invalid fl); exact I.
      * intros s sp [p ->] Hs. apply Forall_app in HU. apply (to_u32_steps cs _ (all_ok i cs HA)); [apply HU|exact Hs].
    + apply Forall_map. apply Forall_forall. intros c _. unfold nostop. cbn [to_step st_stop]. rewrite HS1, !andb_false_r. reflexivity.
    + apply (units_reports cs i); [exact HA|exact HU| |reflexivity]. intros c. split; reflexivity.
  - rewrite misread_id by (intros X; discriminate X). cbn [direct] in HD. destruct (Nat.eqb_spec i j) as [Eij|]; [|discriminate]. injection HD as <-. subst rs. change (map _ src) with (map (unit_read cs) src).
    exists (map (sanitize_step cs fl) src).
    assert (cs' = cs) as -> by (subst j; cbn [is_cset] in HA, HB; congruence).
    split; [apply srcs_units; reflexivity|]. split; [rewrite map_length; lia|]. split; [|split].
    + apply steps_of_map.
      * intros c. split; [reflexivity|]. split; [|cbn; lia]. unfold real_stop. cbn [sanitize_step st_stop].
        destruct (_ && f_stop_invalid fl); exact I.
      * intros s sp [p ->] Hs. apply Forall_app in HU. apply (sanitize_steps cs _ (all_ok i cs HA)); [apply HU|exact Hs].
    + apply Forall_map. apply Forall_forall. intros c _. unfold nostop. cbn [sanitize_step st_stop]. rewrite HS1, !andb_false_r. reflexivity.
    + apply (units_reports cs i); [exact HA|exact HU| |].
      * intros c. split; reflexivity.
      * intros c Hc N. rewrite (can_supports cs j); [apply (supports_decoded cs i); assumption|exact HB|].
        pose proof (decoded_range cs _ (all_ok i cs HA) c Hc). lia.
Qed.
