(* Proofs about PivotModel. *)
From Verif Require Import Base DestModel DestProofs TransSpec PivotModel.

(* ------ sequences of steps ------ *)
Definition real_stop (s : step) : Prop :=
  match st_stop s with None | Some RInvalid | Some RUnsupported => True | _ => False end.
Definition nostop (s : step) : Prop := st_stop s = None.
(* carried out with all the space it may need *)
Definition full (l : list step) : tr_result := run_steps l (zlen (outs l)).
Fixpoint notes_of_steps (l more : list step) : list note :=
  match l with [] => [] | s :: l => note_of s (l ++ more) ++ notes_of_steps l more end.

Lemma srcs_app a b : srcs (a ++ b) = srcs a ++ srcs b. Proof. apply flat_map_app. Qed.
Lemma outs_app a b : outs (a ++ b) = outs a ++ outs b. Proof. apply flat_map_app. Qed.
Lemma outs_cons s l : outs (s :: l) = st_out s ++ outs l. Proof. reflexivity. Qed.
Lemma srcs_cons s l : srcs (s :: l) = st_src s ++ srcs l. Proof. reflexivity. Qed.

Lemma run_app a b sp : Forall nostop a -> 0 <= sp ->
  let r := run_steps b sp in
  run_steps (a ++ b) (zlen (outs a) + sp) =
    mk_tr (r_rest r) (outs a ++ r_out r) (r_reason r) (notes_of_steps a b ++ r_notes r).
Proof.
  cbv zeta. intros H Hs. induction H as [|s a Hn HF IH].
  - cbn [app outs flat_map notes_of_steps]. change (zlen (@nil Z)) with 0. rewrite Z.add_0_l. destruct (run_steps b sp); reflexivity.
  - cbn [app run_steps]. unfold nostop in Hn. rewrite Hn. rewrite outs_cons, zlen_app.
    pose proof (zlen_nonneg (outs a)). pose proof (zlen_nonneg (st_out s)).
    replace (zlen (st_out s) <=? zlen (st_out s) + zlen (outs a) + sp) with true by lia.
    replace (zlen (st_out s) + zlen (outs a) + sp - zlen (st_out s)) with (zlen (outs a) + sp) by lia.
    cbv zeta. rewrite IH. cbn [r_rest r_out r_reason r_notes notes_of_steps]. rewrite !app_assoc. reflexivity.
Qed.

(* how far it gets *)
Lemma run_cut l : Forall real_stop l -> forall sp, 0 <= sp -> exists done todo,
  l = done ++ todo /\ Forall nostop done /\ zlen (outs done) <= sp /\
  r_rest (run_steps l sp) = srcs todo /\ r_out (run_steps l sp) = outs done /\
  match r_reason (run_steps l sp) with
  | RCompleted => todo = [] /\ r_notes (run_steps l sp) = notes_of_steps done todo
  | RInsufficient => exists s more, todo = s :: more /\ nostop s /\ sp < zlen (outs done) + zlen (st_out s) /\
      r_notes (run_steps l sp) = notes_of_steps done todo ++ note_of s more
  | why => exists s more, todo = s :: more /\ st_stop s = Some why /\
      r_notes (run_steps l sp) = notes_of_steps done todo ++ note_of s more
  end.
Proof.
  induction 1 as [|s l Hr HF IH]; intros sp Hs.
  - exists [], []. cbn. repeat split; auto.
  - cbn [run_steps]. unfold real_stop in Hr. destruct (st_stop s) as [why|] eqn:E.
    + exists [], (s :: l). cbn [r_rest r_out r_reason r_notes app notes_of_steps]. change (zlen (outs [])) with 0.
      do 5 (split; [auto; try lia|]). destruct why; try contradiction; exists s, l; auto.
    + destruct (Z.leb_spec (zlen (st_out s)) sp) as [Hle|Hgt].
      * destruct (IH (sp - zlen (st_out s)) ltac:(lia)) as (done & todo & E1 & H1 & H2 & H3 & H4 & H5).
        exists (s :: done), todo. cbv zeta. cbn [r_rest r_out r_reason r_notes]. rewrite outs_cons, zlen_app.
        split; [cbn; congruence|]. split; [constructor; assumption|]. split; [lia|]. split; [exact H3|]. split; [rewrite H4; reflexivity|].
        cbn [notes_of_steps]. rewrite <- E1.
        destruct (r_reason (run_steps l (sp - zlen (st_out s)))).
        -- destruct H5 as [-> ->]. split; reflexivity.
        -- destruct H5 as (x & more & -> & N & G & ->). exists x, more. split; [reflexivity|]. split; [exact N|]. split; [lia|]. rewrite app_assoc. reflexivity.
        -- destruct H5 as (x & more & -> & N & ->). exists x, more. rewrite app_assoc. auto.
        -- destruct H5 as (x & more & -> & N & ->). exists x, more. rewrite app_assoc. auto.
      * exists [], (s :: l). cbn [r_rest r_out r_reason r_notes app notes_of_steps]. change (zlen (outs [])) with 0.
        do 5 (split; [auto; try lia|]). exists s, l. split; [reflexivity|]. split; [exact E|]. split; [lia|reflexivity].
Qed.

Lemma full_app a b : Forall nostop a ->
  full (a ++ b) = mk_tr (r_rest (full b)) (outs a ++ r_out (full b)) (r_reason (full b)) (notes_of_steps a b ++ r_notes (full b)).
Proof. intros H. unfold full. rewrite outs_app, zlen_app. apply run_app; [exact H|apply zlen_nonneg]. Qed.
Lemma full_stop s l : st_stop s <> None ->
  full (s :: l) = mk_tr (srcs (s :: l)) [] (match st_stop s with Some w => w | None => RCompleted end) (note_of s l).
Proof. intros H. unfold full. cbn [run_steps]. destruct (st_stop s); [reflexivity|congruence]. Qed.
Lemma full_not_insufficient l : Forall real_stop l -> r_reason (full l) <> RInsufficient.
Proof.
  intros H E. unfold full in E. destruct (run_cut l H (zlen (outs l)) (zlen_nonneg _)) as (d & t & E1 & H1 & H2 & H3 & H4 & H5).
  rewrite E in H5. destruct H5 as (s & more & -> & _ & G & _). rewrite E1, outs_app, outs_cons, !zlen_app in G.
  pose proof (zlen_nonneg (outs more)). lia.
Qed.
Lemma full_big l big : Forall real_stop l -> zlen (outs l) <= big -> run_steps l big = full l.
Proof.
  unfold full. intros H. revert big. induction H as [|s l Hr HF IH]; intros big Hb; [reflexivity|].
  cbn [run_steps]. destruct (st_stop s); [reflexivity|]. rewrite outs_cons, zlen_app in *. pose proof (zlen_nonneg (outs l)).
  replace (zlen (st_out s) <=? big) with true by lia. replace (zlen (st_out s) <=? zlen (st_out s) + zlen (outs l)) with true by lia.
  cbv zeta. rewrite (IH (big - zlen (st_out s))) by lia. rewrite (IH (zlen (st_out s) + zlen (outs l) - zlen (st_out s))) by lia. reflexivity.
Qed.

(* ------ what is asked of the two functions ------ *)
(* the source [srcs l] is decoded by the steps l, each giving one code point *)
Definition decoding (P : Z -> Prop) (to_u32 : list Z -> Z -> option tr_result) (l : list step) : Prop :=
  (forall pre suf sp, l = pre ++ suf -> 0 <= sp -> to_u32 (srcs suf) sp = Some (run_steps suf sp)) /\
  Forall (fun s => (st_stop s = None \/ st_stop s = Some RInvalid) /\ (exists c, st_out s = [c] /\ P c) /\
                   forall c, st_report s <> ReportUnsupported c) l.
(* code points that satisfy P are encoded one by one *)
Definition encoding (P : Z -> Prop) (from_u32 : list Z -> Z -> option tr_result) (enc : Z -> step) : Prop :=
  (forall us sp, Forall P us -> 0 <= sp -> from_u32 us sp = Some (run_steps (map enc us) sp)) /\
  forall c, st_src (enc c) = [c] /\ (st_stop (enc c) = None \/ st_stop (enc c) = Some RUnsupported) /\
            st_report (enc c) <> ReportInvalid.
Definition encoding_size (P : Z -> Prop) (size_calc : list Z -> Z -> option sz_res) (enc : Z -> step) : Prop :=
  forall us sp, Forall P us -> 0 <= sp -> size_calc us sp = Some (size_of_result (run_steps (map enc us) sp)).

Lemma decoding_suffix P f pre suf : decoding P f (pre ++ suf) -> decoding P f suf.
Proof.
  intros [H1 H2]. split.
  - intros a b sp -> Hs. apply (H1 (pre ++ a)); [rewrite app_assoc; reflexivity|exact Hs].
  - apply Forall_app in H2. apply H2.
Qed.
Lemma decoding_stop P f l : decoding P f l -> Forall real_stop l.
Proof.
  intros [_ H]. eapply Forall_impl; [|exact H]. cbv beta. intros s ([E|E] & _); unfold real_stop; rewrite E; exact I.
Qed.
Lemma decoding_outs P l : Forall (fun s => (st_stop s = None \/ st_stop s = Some RInvalid) /\ (exists c, st_out s = [c] /\ P c) /\
                   forall c, st_report s <> ReportUnsupported c) l -> Forall P (outs l) /\ zlen (outs l) = zlen l.
Proof.
  intros H. induction H as [|s l (_ & (c & E & HP) & _) HF IH]; [split; [constructor|reflexivity]|].
  rewrite outs_cons, E. cbn [app]. rewrite !zlen_cons. destruct IH. split; [constructor; assumption|lia].
Qed.
Lemma encoding_stop P f enc us : encoding P f enc -> Forall real_stop (map enc us).
Proof.
  intros [_ H]. apply Forall_forall. intros s Hs. apply in_map_iff in Hs as (c & <- & _).
  destruct (H c) as (_ & [E|E] & _); unfold real_stop; rewrite E; exact I.
Qed.
Lemma encoding_srcs P f enc us : encoding P f enc -> srcs (map enc us) = us.
Proof. intros [_ H]. induction us as [|c us IH]; [reflexivity|]. cbn [map]. rewrite srcs_cons, IH. destruct (H c) as (-> & _). reflexivity. Qed.
Lemma enc_note P f enc c a b : encoding P f enc -> note_of (enc c) a = note_of (enc c) b.
Proof. intros [_ H]. destruct (H c) as (_ & _ & N). unfold note_of. destruct (st_report (enc c)); congruence. Qed.
Lemma enc_notes P f enc us a b : encoding P f enc -> notes_of_steps (map enc us) a = notes_of_steps (map enc us) b.
Proof.
  intros H. induction us as [|c us IH]; [reflexivity|]. cbn [map notes_of_steps]. rewrite IH. f_equal. eapply enc_note; exact H.
Qed.

(* encoding a text in two pieces *)
Lemma enc_cut P f enc us sp : encoding P f enc -> 0 <= sp -> exists c1 c2, us = c1 ++ c2 /\
  r_out (run_steps (map enc us) sp) = outs (map enc c1) /\ zlen (outs (map enc c1)) <= sp /\ Forall nostop (map enc c1) /\
  r_rest (run_steps (map enc us) sp) = c2 /\
  match r_reason (run_steps (map enc us) sp) with
  | RCompleted => c2 = [] /\ r_notes (run_steps (map enc us) sp) = notes_of_steps (map enc c1) []
  | RInsufficient => exists c more, c2 = c :: more /\ nostop (enc c) /\ sp < zlen (outs (map enc c1)) + zlen (st_out (enc c)) /\
      r_notes (run_steps (map enc us) sp) = notes_of_steps (map enc c1) [] ++ note_of (enc c) []
  | RUnsupported => exists c more, c2 = c :: more /\ st_stop (enc c) = Some RUnsupported /\
      r_notes (run_steps (map enc us) sp) = notes_of_steps (map enc c1) [] ++ note_of (enc c) []
  | RInvalid => False
  end.
Proof.
  intros HE Hs. destruct (run_cut (map enc us) (encoding_stop _ _ _ us HE) sp Hs) as (d & t & E & H1 & H2 & H3 & H4 & H5).
  apply map_eq_app in E as (c1 & c2 & -> & <- & <-). exists c1, c2. rewrite (encoding_srcs _ _ _ c2 HE) in H3.
  do 5 (split; [auto|]).
  destruct (r_reason (run_steps (map enc (c1 ++ c2)) sp)).
  - destruct H5 as [H5 ->]. apply map_eq_nil in H5 as ->. split; [reflexivity|]. apply (enc_notes _ _ _ _ _ _ HE).
  - destruct H5 as (s & more & E & N & G & ->). destruct c2 as [|c c2]; [discriminate|]. injection E as <- <-.
    exists c, c2. split; [reflexivity|]. split; [exact N|]. split; [exact G|]. f_equal; [apply (enc_notes _ _ _ _ _ _ HE)|apply (enc_note _ _ _ _ _ _ HE)].
  - destruct H5 as (s & more & E & N & _). destruct c2 as [|c c2]; [discriminate|]. injection E as <- <-.
    destruct HE as [_ HE]. destruct (HE c) as (_ & [X|X] & _); congruence.
  - destruct H5 as (s & more & E & N & ->). destruct c2 as [|c c2]; [discriminate|]. injection E as <- <-.
    exists c, c2. split; [reflexivity|]. split; [exact N|]. f_equal; [apply (enc_notes _ _ _ _ _ _ HE)|apply (enc_note _ _ _ _ _ _ HE)].
Qed.
Lemma enc_append_completed P f enc a b sp : encoding P f enc -> 0 <= sp -> r_reason (run_steps (map enc a) sp) = RCompleted ->
  let ra := run_steps (map enc a) sp in let rb := run_steps (map enc b) (sp - zlen (r_out ra)) in
  zlen (r_out ra) <= sp /\
  run_steps (map enc (a ++ b)) sp = mk_tr (r_rest rb) (r_out ra ++ r_out rb) (r_reason rb) (r_notes ra ++ r_notes rb).
Proof.
  cbv zeta. intros HE Hs HC. destruct (enc_cut P f enc a sp HE Hs) as (c1 & c2 & E & H1 & H2 & H3 & H4 & H5).
  rewrite HC in H5. destruct H5 as [-> HN]. rewrite app_nil_r in E. subst c1. rewrite H1, HN. split; [exact H2|].
  rewrite map_app. replace sp with (zlen (outs (map enc a)) + (sp - zlen (outs (map enc a)))) at 1 by lia.
  rewrite run_app by (try exact H3; lia). rewrite (enc_notes _ _ _ a (map enc b) [] HE). reflexivity.
Qed.
Lemma enc_append_stopped P f enc a b sp : encoding P f enc -> 0 <= sp -> r_reason (run_steps (map enc a) sp) <> RCompleted ->
  let ra := run_steps (map enc a) sp in
  run_steps (map enc (a ++ b)) sp = mk_tr (r_rest ra ++ b) (r_out ra) (r_reason ra) (r_notes ra).
Proof.
  cbv zeta. intros HE Hs HC. destruct (enc_cut P f enc a sp HE Hs) as (c1 & c2 & E & H1 & H2 & H3 & H4 & H5).
  set (ra := run_steps (map enc a) sp) in *. rewrite H1, H4. rewrite E, <- app_assoc, map_app.
  replace sp with (zlen (outs (map enc c1)) + (sp - zlen (outs (map enc c1)))) by lia.
  rewrite run_app by (try exact H3; lia).
  destruct (r_reason ra); [congruence| |contradiction|].
  - destruct H5 as (c & more & -> & N & G & ->). cbn [app map run_steps]. rewrite N.
    replace (zlen (st_out (enc c)) <=? sp - zlen (outs (map enc c1))) with false by lia.
    cbn [r_rest r_out r_reason r_notes]. change (srcs (enc c :: map enc (more ++ b))) with (srcs (map enc (c :: more ++ b))).
    rewrite (encoding_srcs _ _ _ _ HE), app_nil_r. f_equal. f_equal; [apply (enc_notes _ _ _ _ _ _ HE)|apply (enc_note _ _ _ _ _ _ HE)].
  - destruct H5 as (c & more & -> & N & ->). cbn [app map run_steps]. rewrite N.
    cbn [r_rest r_out r_reason r_notes]. change (srcs (enc c :: map enc (more ++ b))) with (srcs (map enc (c :: more ++ b))).
    rewrite (encoding_srcs _ _ _ _ HE), app_nil_r. f_equal. f_equal; [apply (enc_notes _ _ _ _ _ _ HE)|apply (enc_note _ _ _ _ _ _ HE)].
Qed.

(* decoding one pivot-full *)
Lemma dec_cut P f l sp : decoding P f l -> 0 < sp -> exists done todo,
  l = done ++ todo /\ Forall nostop done /\ zlen done <= sp /\
  f (srcs l) sp = Some (run_steps l sp) /\ Forall P (outs done) /\ zlen (outs done) = zlen done /\
  r_rest (run_steps l sp) = srcs todo /\ r_out (run_steps l sp) = outs done /\
  match r_reason (run_steps l sp) with
  | RCompleted => todo = [] /\ full l = run_steps l sp
  | RInsufficient => zlen done = sp /\
      (exists s more, todo = s :: more /\ nostop s /\ r_notes (run_steps l sp) = notes_of_steps done todo ++ note_of s more)
  | RInvalid => full l = run_steps l sp
  | RUnsupported => False
  end.
Proof.
  intros HD Hs. destruct (run_cut l (decoding_stop _ _ _ HD) sp ltac:(lia)) as (d & t & E & H1 & H2 & H3 & H4 & H5).
  exists d, t. pose proof HD as [HD1 HD2]. pose proof HD2 as HD3. rewrite E in HD3. apply Forall_app in HD3 as [HD3 HD4].
  destruct (decoding_outs P d HD3) as [HO HL]. rewrite HL in *.
  split; [exact E|]. split; [exact H1|]. split; [exact H2|]. split; [apply (HD1 []); [reflexivity|lia]|].
  split; [exact HO|]. split; [reflexivity|]. split; [exact H3|]. split; [exact H4|].
  destruct (r_reason (run_steps l sp)) eqn:ER.
  - destruct H5 as [-> _]. split; [reflexivity|]. symmetry. apply full_big; [apply (decoding_stop _ _ _ HD)|].
    rewrite E, app_nil_r. lia.
  - destruct H5 as (s & more & -> & N & G & EN). split; [|exists s, more; auto].
    apply Forall_inv in HD4 as (_ & (c & Ec & _) & _). rewrite Ec in G. change (zlen [c]) with 1 in G. lia.
  - destruct H5 as (s & more & -> & N & EN). rewrite E. rewrite full_app by exact H1.
    replace sp with (zlen (outs d) + (sp - zlen d)) by lia. rewrite run_app by (try exact H1; lia).
    rewrite full_stop by congruence. cbn [run_steps]. rewrite N. reflexivity.
  - destruct H5 as (s & more & -> & N & EN). apply Forall_inv in HD4 as ([X|X] & _); congruence.
Qed.

Definition is_unsupported (n : note) : bool := match n with NoteUnsupported _ => true | _ => false end.
Lemma dec_notes_free P l sp : Forall (fun s => (st_stop s = None \/ st_stop s = Some RInvalid) /\ (exists c, st_out s = [c] /\ P c) /\
                   forall c, st_report s <> ReportUnsupported c) l -> filter is_unsupported (r_notes (run_steps l sp)) = [].
Proof.
  intros H. revert sp. induction H as [|s l (H1 & H2 & H3) HF IH]; intros sp; [reflexivity|].
  assert (HN : filter is_unsupported (note_of s l) = []).
  { unfold note_of. destruct (st_report s); try reflexivity. exfalso. eapply H3. reflexivity. }
  cbn [run_steps]. destruct (st_stop s); [exact HN|]. destruct (zlen (st_out s) <=? sp); [|exact HN].
  cbv zeta. cbn [r_notes]. rewrite filter_app, HN, IH. reflexivity.
Qed.
Lemma enc_notes_all P f enc us sp : encoding P f enc -> filter is_unsupported (r_notes (run_steps (map enc us) sp)) = r_notes (run_steps (map enc us) sp).
Proof.
  intros [_ HE]. revert sp. induction us as [|c us IH]; intros sp; [reflexivity|].
  assert (HN : forall x, filter is_unsupported (note_of (enc c) x) = note_of (enc c) x).
  { intros x. destruct (HE c) as (_ & _ & N). unfold note_of. destruct (st_report (enc c)); try reflexivity. congruence. }
  cbn [map run_steps]. destruct (st_stop (enc c)); [apply HN|]. destruct (zlen (st_out (enc c)) <=? sp); [|apply HN].
  cbv zeta. cbn [r_notes]. rewrite filter_app, HN, IH. reflexivity.
Qed.

(* ------ decode_encode ------ *)
Definition de_spec (l : list step) (enc : Z -> step) (space : Z) (r : de_result) : Prop :=
  let d := full l in let e := run_steps (map enc (r_out d)) space in
  de_out r = r_out e /\
  filter is_unsupported (de_notes r) = r_notes e /\
  (forall n, In n (de_notes r) -> In n (r_notes d ++ r_notes e)) /\
  (r_reason e = RCompleted -> de_reason r = r_reason d /\ de_stale r = r_rest d /\ de_dist r = 0 /\
     forall n, In n (r_notes d ++ r_notes e) -> In n (de_notes r)) /\
  (r_reason e <> RCompleted -> de_reason r = r_reason e /\
     exists pre suf, l = pre ++ suf /\ Forall nostop pre /\ de_stale r = srcs suf /\ 0 <= de_dist r < pivot_size /\
       zlen pre + de_dist r = zlen (r_out d) - zlen (r_rest e)).

Lemma reason_eqb_spec a b : reason_eqb a b = true <-> a = b.
Proof. destruct a, b; split; intros; try reflexivity; discriminate. Qed.

Lemma decode_encode_ok P D E enc : encoding P E enc -> forall fuel l space, decoding P D l -> (length l < fuel)%nat -> 0 <= space ->
  exists r, decode_encode D E fuel (srcs l) space = Some r /\ de_spec l enc space r.
Proof.
  intros HE. induction fuel as [|fuel IH]; intros l space HD HF Hs; [lia|].
  destruct (dec_cut P D l pivot_size HD ltac:(unfold pivot_size; lia)) as (dn & td & El & Hn & Hlen & HDf & HP & HL & Hrest & Hout & Hre).
  cbn [decode_encode]. rewrite HDf. cbn [obind]. destruct HE as [HE1 HE2]. rewrite Hout. rewrite HE1 by assumption. cbn [obind].
  pose proof (conj HE1 HE2) as HE.
  assert (A1 : reason_eqb (r_reason (run_steps l pivot_size)) RUnsupported = false).
  { destruct (r_reason (run_steps l pivot_size)); try reflexivity. contradiction. }
  rewrite A1. cbn [negb assert obind].
  destruct (enc_cut P E enc (outs dn) space HE Hs) as (c1 & c2 & Ec & Ho & Hos & Hns & Hre2 & Hc).
  set (dr := run_steps l pivot_size) in *. set (er := run_steps (map enc (outs dn)) space) in *.
  assert (A2 : reason_eqb (r_reason er) RInvalid = false) by (destruct (r_reason er); try reflexivity; contradiction).
  rewrite A2. cbn [negb assert obind].
  assert (ND : filter is_unsupported (r_notes dr) = []) by (apply (dec_notes_free P); apply HD).
  assert (NE : filter is_unsupported (r_notes er) = r_notes er) by (eapply enc_notes_all; exact HE).
  destruct (reason_eqb (r_reason er) RCompleted) eqn:EC.
  - apply reason_eqb_spec in EC. destruct (reason_eqb (r_reason dr) RInsufficient) eqn:EI.
    + apply reason_eqb_spec in EI. rewrite EI in Hre. destruct Hre as (Hd16 & s & more & Etd & Nst & Enote).
      assert (HD' : decoding P D td) by (rewrite El in HD; eapply decoding_suffix; exact HD).
      assert (HF' : (length td < fuel)%nat).
      { rewrite El, app_length in HF. unfold zlen, pivot_size in Hd16. lia. }
      rewrite Hrest.
      assert (Hle : zlen (r_out er) <= space) by (rewrite Ho; exact Hos).
      destruct (IH td (space - zlen (r_out er)) HD' HF' ltac:(lia)) as (r & Er & HS). rewrite Er. cbn [obind].
      eexists. split; [reflexivity|]. unfold de_spec in HS |- *. cbn [de_out de_notes de_reason de_stale de_dist].
      rewrite El, full_app by exact Hn. cbn [r_out r_notes r_rest r_reason].
      destruct (enc_append_completed P E enc (outs dn) (r_out (full td)) space HE Hs EC) as [_ EA]. fold er in EA.
      rewrite EA. cbn [r_out r_notes r_rest r_reason].
      set (e' := run_steps (map enc (r_out (full td))) (space - zlen (r_out er))) in *. cbv zeta in HS.
      destruct HS as (S1 & S2 & S3 & S4 & S5).
      split; [congruence|].
      split; [rewrite !filter_app, ND, NE, S2; reflexivity|].
      assert (Hhead : forall n, In n (note_of s more) -> In n (r_notes (full td))).
      { intros n Hin. rewrite Etd. unfold full. cbn [run_steps]. rewrite Nst.
        replace (zlen (st_out s) <=? zlen (outs (s :: more))) with true by (rewrite outs_cons, zlen_app; pose proof (zlen_nonneg (outs more)); lia).
        cbv zeta. cbn [r_notes]. apply in_or_app. left. exact Hin. }
      split.
      { intros n Hin. rewrite Enote in Hin. rewrite !in_app_iff in *.
        destruct Hin as [[[Hin|Hin]|Hin]|Hin]; auto.
        apply S3 in Hin. rewrite in_app_iff in Hin. tauto. }
      split.
      { intros HC. destruct (S4 HC) as (T1 & T2 & T3 & T4). split; [exact T1|]. split; [exact T2|]. split; [exact T3|].
        intros n Hin. rewrite Enote. rewrite !in_app_iff in *. destruct Hin as [[Hin|Hin]|[Hin|Hin]]; auto.
        - right. apply T4. rewrite in_app_iff. auto.
        - right. apply T4. rewrite in_app_iff. auto. }
      { intros HC. destruct (S5 HC) as (T1 & pre & suf & T2 & TN & T3 & T4 & T5). split; [exact T1|].
        exists (dn ++ pre), suf. split; [rewrite T2, app_assoc; reflexivity|]. split; [apply Forall_app; auto|]. split; [exact T3|]. split; [exact T4|].
        rewrite !zlen_app, HL. lia. }
    + eexists. split; [reflexivity|]. unfold de_spec. cbn [de_out de_notes de_reason de_stale de_dist].
      assert (EF : full l = dr).
      { destruct (r_reason dr); first [apply Hre | discriminate EI | contradiction]. }
      rewrite EF, Hout. fold er. rewrite EC. split; [reflexivity|].
      split; [rewrite filter_app, ND, NE; reflexivity|]. split; [auto|]. split; [|congruence]. intros _. auto.
  - eexists. split; [reflexivity|]. unfold de_spec. cbn [de_out de_notes de_reason de_stale de_dist].
    assert (EC' : r_reason er <> RCompleted) by (intros X; apply reason_eqb_spec in X; congruence).
    assert (EF : exists more, r_out (full l) = outs dn ++ more /\ forall n, In n (r_notes dr) -> In n (r_notes (full l))).
    { destruct (r_reason dr) eqn:ED.
      - destruct Hre as [_ ->]. exists []. rewrite app_nil_r. auto.
      - destruct Hre as (_ & s & more & Etd & Nst & Enote). rewrite El, full_app by exact Hn. cbn [r_out r_notes]. exists (r_out (full td)). split; [reflexivity|].
        intros n. rewrite Enote, !in_app_iff. intros [Hin|Hin]; [auto|]. right. rewrite Etd. unfold full. cbn [run_steps]. rewrite Nst.
        replace (zlen (st_out s) <=? zlen (outs (s :: more))) with true by (rewrite outs_cons, zlen_app; pose proof (zlen_nonneg (outs more)); lia).
        cbv zeta. cbn [r_notes]. apply in_or_app. left. exact Hin.
      - rewrite Hre. exists []. rewrite app_nil_r. auto.
      - contradiction. }
    destruct EF as (more & EF & EN). rewrite EF.
    pose proof (enc_append_stopped P E enc (outs dn) more space HE Hs EC') as EA. cbv zeta in EA. fold er in EA. rewrite EA.
    cbn [r_out r_notes r_rest r_reason].
    split; [reflexivity|]. split; [rewrite filter_app, ND, NE; reflexivity|].
    split; [intros n; rewrite !in_app_iff; intros [Hin|Hin]; auto|].
    split; [congruence|]. intros _. split; [reflexivity|].
    exists [], l. split; [reflexivity|]. split; [constructor|]. split; [reflexivity|]. rewrite Hre2. rewrite !zlen_app. change (zlen (@nil step)) with 0.
    assert (zlen (outs dn) = zlen c1 + zlen c2) as Ez by (rewrite Ec, zlen_app; reflexivity).
    assert (0 < zlen c2).
    { destruct (r_reason er); [congruence| |contradiction|]; destruct Hc as (c & m & -> & _); rewrite zlen_cons; pose proof (zlen_nonneg m); lia. }
    pose proof (zlen_nonneg c1). split; [lia|]. lia.
Qed.

(* ------ decode_encode_size ------ *)
Definition des_spec (l : list step) (enc : Z -> step) (pivot limit : Z) (r : des_result) : Prop :=
  let d := full l in let e := run_steps (map enc (r_out d)) limit in
  ds_size r = zlen (r_out e) /\
  (r_reason e = RCompleted -> ds_reason r = r_reason d /\ ds_stale r = r_rest d /\ ds_dist r = 0) /\
  (r_reason e <> RCompleted -> ds_reason r = r_reason e /\
     exists pre suf, l = pre ++ suf /\ Forall nostop pre /\ ds_stale r = srcs suf /\ 0 <= ds_dist r < pivot /\
       zlen pre + ds_dist r = zlen (r_out d) - zlen (r_rest e)).

Lemma decode_encode_size_ok P D E SZ enc pivot : encoding P E enc -> encoding_size P SZ enc -> 0 < pivot ->
  forall fuel l limit size, decoding P D l -> (length l < fuel)%nat -> 0 <= limit ->
  exists r, decode_encode_size D SZ pivot fuel (srcs l) limit size = Some (mk_des (size + ds_size r) (ds_stale r) (ds_dist r) (ds_reason r)) /\
    des_spec l enc pivot limit r.
Proof.
  intros HE HZ Hpiv. induction fuel as [|fuel IH]; intros l space size HD HF Hs; [lia|].
  destruct (dec_cut P D l pivot HD Hpiv) as (dn & td & El & Hn & Hlen & HDf & HP & HL & Hrest & Hout & Hre).
  cbn [decode_encode_size]. rewrite HDf. cbn [obind]. rewrite Hout. rewrite HZ by assumption. cbn [obind].
  assert (A1 : reason_eqb (r_reason (run_steps l pivot)) RUnsupported = false).
  { destruct (r_reason (run_steps l pivot)); try reflexivity. contradiction. }
  rewrite A1. cbn [negb assert obind].
  destruct (enc_cut P E enc (outs dn) space HE Hs) as (c1 & c2 & Ec & Ho & Hos & Hns & Hre2 & Hc).
  set (dr := run_steps l pivot) in *. set (er := run_steps (map enc (outs dn)) space) in *.
  assert (A2 : reason_eqb (r_reason er) RInvalid = false) by (destruct (r_reason er); try reflexivity; contradiction).
  unfold size_of_result. cbn [z_reason z_size z_rest]. rewrite A2. cbn [negb assert obind].
  assert (Hle : zlen (r_out er) <= space) by (rewrite Ho; exact Hos).
  replace (zlen (r_out er) <=? space) with true by lia. cbn [assert obind]. cbv zeta.
  destruct (reason_eqb (r_reason er) RCompleted) eqn:EC.
  - apply reason_eqb_spec in EC. destruct (reason_eqb (r_reason dr) RInsufficient) eqn:EI.
    + apply reason_eqb_spec in EI. rewrite EI in Hre. destruct Hre as (Hd16 & s & more & Etd & Nst & Enote).
      assert (HD' : decoding P D td) by (rewrite El in HD; eapply decoding_suffix; exact HD).
      assert (HF' : (length td < fuel)%nat).
      { rewrite El, app_length in HF. unfold zlen in Hd16. lia. }
      rewrite Hrest.
      destruct (IH td (space - zlen (r_out er)) (size + zlen (r_out er)) HD' HF' ltac:(lia)) as (r & Er & HS). rewrite Er.
      exists (mk_des (zlen (r_out er) + ds_size r) (ds_stale r) (ds_dist r) (ds_reason r)). cbn [ds_size ds_stale ds_dist ds_reason].
      split; [f_equal; f_equal; lia|]. unfold des_spec in HS |- *. cbn [ds_size ds_stale ds_dist ds_reason].
      rewrite El, full_app by exact Hn. cbn [r_out r_notes r_rest r_reason].
      destruct (enc_append_completed P E enc (outs dn) (r_out (full td)) space HE Hs EC) as [_ EA]. fold er in EA.
      rewrite EA. cbn [r_out r_notes r_rest r_reason].
      set (e' := run_steps (map enc (r_out (full td))) (space - zlen (r_out er))) in *. cbv zeta in HS.
      destruct HS as (S1 & S4 & S5).
      split; [rewrite zlen_app; lia|]. split; [exact S4|].
      intros HC. destruct (S5 HC) as (T1 & pre & suf & T2 & TN & T3 & T4 & T5). split; [exact T1|].
      exists (dn ++ pre), suf. split; [rewrite T2, app_assoc; reflexivity|]. split; [apply Forall_app; auto|]. split; [exact T3|]. split; [exact T4|].
      rewrite !zlen_app, HL. lia.
    + exists (mk_des (zlen (r_out er)) (r_rest dr) 0 (r_reason dr)). cbn [ds_size ds_stale ds_dist ds_reason].
      split; [reflexivity|]. unfold des_spec. cbn [ds_size ds_stale ds_dist ds_reason].
      assert (EF : full l = dr).
      { destruct (r_reason dr); first [apply Hre | discriminate EI | contradiction]. }
      rewrite EF, Hout. fold er. rewrite EC. split; [reflexivity|]. split; [|congruence]. intros _. auto.
  - exists (mk_des (zlen (r_out er)) (srcs l) (zlen (outs dn) - zlen (r_rest er)) (r_reason er)). cbn [ds_size ds_stale ds_dist ds_reason].
    split; [reflexivity|]. unfold des_spec. cbn [ds_size ds_stale ds_dist ds_reason].
    assert (EC' : r_reason er <> RCompleted) by (intros X; apply reason_eqb_spec in X; congruence).
    assert (EF : exists more, r_out (full l) = outs dn ++ more).
    { destruct (r_reason dr) eqn:ED.
      - destruct Hre as [_ ->]. exists []. rewrite app_nil_r. auto.
      - rewrite El, full_app by exact Hn. cbn [r_out r_notes]. exists (r_out (full td)). reflexivity.
      - rewrite Hre. exists []. rewrite app_nil_r. auto.
      - contradiction. }
    destruct EF as (more & EF). rewrite EF.
    pose proof (enc_append_stopped P E enc (outs dn) more space HE Hs EC') as EA. cbv zeta in EA. fold er in EA. rewrite EA.
    cbn [r_out r_notes r_rest r_reason].
    split; [reflexivity|]. split; [congruence|]. intros _. split; [reflexivity|].
    exists [], l. split; [reflexivity|]. split; [constructor|]. split; [reflexivity|]. rewrite Hre2. rewrite !zlen_app. change (zlen (@nil step)) with 0.
    assert (zlen (outs dn) = zlen c1 + zlen c2) as Ez by (rewrite Ec, zlen_app; reflexivity).
    assert (0 < zlen c2).
    { destruct (r_reason er); [congruence| |contradiction|]; destruct Hc as (c & m & -> & _); rewrite zlen_cons; pose proof (zlen_nonneg m); lia. }
    pose proof (zlen_nonneg c1). split; [lia|]. lia.
Qed.

(* ------ into a destination ------ *)
Section Dest.
Context {S : Type} (ops : dest_ops S) (R : S -> list Z -> Prop) (pre : S -> Prop) (L : dest_laws ops R pre).

(* a function that carries out the steps l of its source *)
Definition steps_of (f : list Z -> Z -> option tr_result) (l : list step) : Prop :=
  (forall a b sp, l = a ++ b -> 0 <= sp -> f (srcs b) sp = Some (run_steps b sp)) /\
  Forall (fun s => real_stop s /\ zlen (st_out s) <= 64) l.
Lemma steps_suffix f a b : steps_of f (a ++ b) -> steps_of f b.
Proof.
  intros [H1 H2]. split.
  - intros x y sp -> Hs. apply (H1 (a ++ x)); [rewrite app_assoc; reflexivity|exact Hs].
  - apply Forall_app in H2. apply H2.
Qed.
Lemma steps_stop f l : steps_of f l -> Forall real_stop l.
Proof. intros [_ H]. eapply Forall_impl; [|exact H]. intros s Hs. apply Hs. Qed.

Definition to_dest_spec (l : list step) (s : S) (t : list Z) (count : Z) (s' : S) (z : sz_res) : Prop :=
  R s' (t ++ r_out (full l)) /\
  ((z_reason z = RInsufficient /\ d_good ops s' = false /\
    exists l1 l2, l = l1 ++ l2 /\ Forall nostop l1 /\ z_rest z = srcs l2 /\ z_size z = count + zlen (outs l1)) \/
   (z_reason z = r_reason (full l) /\ z_rest z = r_rest (full l) /\ z_size z = count + zlen (r_out (full l)))).

Lemma transcode_loop_ok f : forall fuel l s t count, steps_of f l -> R s t ->
  (length l + (if (64 <=? d_space ops s)%nat then 1 else 2) <= fuel)%nat ->
  exists s' z, transcode_loop f ops fuel s (srcs l) count = Some (s', z) /\ to_dest_spec l s t count s' z.
Proof.
  induction fuel as [|fuel IH]; intros l s t count HS HR HF; [destruct (_ <=? _)%nat in HF; lia|].
  cbn [transcode_loop]. pose proof HS as [HS1 HS2]. rewrite (HS1 [] l _ eq_refl) by lia. cbn [obind].
  destruct (run_cut l (steps_stop _ _ HS) (Z.of_nat (d_space ops s)) ltac:(lia)) as (dn & td & El & Hn & Hlen & Hrest & Hout & Hre).
  set (r := run_steps l (Z.of_nat (d_space ops s))) in *. rewrite Hout.
  destruct (law_emit _ _ _ L s t (outs dn) HR) as (s1 & E1 & R1 & _); [unfold zlen in Hlen; lia|]. rewrite E1. cbn [obind].
  destruct (reason_eqb (r_reason r) RInsufficient) eqn:EI; cbn [negb].
  - apply reason_eqb_spec in EI. rewrite EI in Hre. destruct Hre as (x & more & Etd & Nst & G & _).
    destruct (law_recycle _ _ _ L s1 _ R1) as [R2 H64].
    assert (EFl : r_out (full l) = outs dn ++ r_out (full td) /\ r_reason (full l) = r_reason (full td) /\ r_rest (full l) = r_rest (full td)).
    { rewrite El, full_app by exact Hn. auto. }
    destruct EFl as (F1 & F2 & F3).
    destruct (d_good ops (d_recycle ops s1)) eqn:EG; cbn [negb].
    + rewrite Hrest. rewrite El in HS. apply steps_suffix in HS.
      assert (HF' : (length td + (if (64 <=? d_space ops (d_recycle ops s1))%nat then 1 else 2) <= fuel)%nat).
      { destruct (Nat.leb_spec 64 (d_space ops (d_recycle ops s1))); [|lia]. rewrite El, app_length in HF.
        destruct (Nat.leb_spec 64 (d_space ops s)) as [Hb|Hb]; [|lia].
        destruct dn as [|y dn]; [|cbn [length] in HF; lia]. exfalso.
        rewrite Etd in El. cbn [app] in El. rewrite El in HS2. apply Forall_inv in HS2 as [_ HS2]. change (zlen (outs [])) with 0 in G. lia. }
      destruct (IH td (d_recycle ops s1) (t ++ outs dn) (count + zlen (outs dn)) HS R2 HF') as (s' & z & Ez & H1 & H2).
      exists s', z. split; [exact Ez|]. split; [rewrite F1, app_assoc; exact H1|].
      destruct H2 as [(H2 & H3 & l1 & l2 & Q1 & Q2 & Q3 & Q4)|(H2 & H3 & H4)]; [left|right].
      { split; [exact H2|]. split; [exact H3|]. exists (dn ++ l1), l2. split; [rewrite El, Q1, app_assoc; reflexivity|].
        split; [apply Forall_app; auto|]. split; [exact Q3|]. rewrite outs_app, zlen_app. lia. }
      rewrite F2, F3, F1, zlen_app. split; [exact H2|]. split; [exact H3|lia].
    + eexists _, _. split; [reflexivity|]. split; [rewrite F1, app_assoc; apply (law_bad _ _ _ L); assumption|].
      left. split; [reflexivity|]. split; [exact EG|]. exists dn, td. cbn [z_rest z_size]. auto.
  - assert (EF : full l = r).
    { unfold r. destruct (r_reason r) eqn:ER; try discriminate EI.
      - destruct Hre as [-> _]. symmetry. apply full_big; [eapply steps_stop; exact HS|]. rewrite El, app_nil_r. exact Hlen.
      - destruct Hre as (x & more & -> & N & _). rewrite El, full_app by exact Hn.
        replace (Z.of_nat (d_space ops s)) with (zlen (outs dn) + (Z.of_nat (d_space ops s) - zlen (outs dn))) by lia.
        rewrite run_app by (try exact Hn; lia). rewrite full_stop by congruence. cbn [run_steps]. rewrite N. reflexivity.
      - destruct Hre as (x & more & -> & N & _). rewrite El, full_app by exact Hn.
        replace (Z.of_nat (d_space ops s)) with (zlen (outs dn) + (Z.of_nat (d_space ops s) - zlen (outs dn))) by lia.
        rewrite run_app by (try exact Hn; lia). rewrite full_stop by congruence. cbn [run_steps]. rewrite N. reflexivity. }
    eexists _, _. split; [reflexivity|]. unfold to_dest_spec. rewrite EF, Hout. split; [exact R1|]. right. cbn [z_reason z_rest z_size]. auto.
Qed.
Lemma transcode_to_dest_ok f fuel l s t : steps_of f l -> R s t -> (length l + 2 <= fuel)%nat ->
  exists s' z, transcode_to_dest f ops fuel s (srcs l) = Some (s', z) /\ to_dest_spec l s t 0 s' z.
Proof.
  intros HS HR HF. unfold transcode_to_dest. destruct (d_good ops s) eqn:G; cbn [negb].
  - apply transcode_loop_ok; auto. destruct (_ <=? _)%nat; lia.
  - eexists _, _. split; [reflexivity|]. split; [apply (law_bad _ _ _ L); assumption|]. left. split; [reflexivity|]. split; [exact G|].
    exists [], l. cbn [z_rest z_size]. auto.
Qed.

(* the pivot version.  [e]: encoding the whole decoded text without limit *)
Definition ded_spec (l : list step) (enc : Z -> step) (s : S) (t : list Z) (count : Z) (s' : S) (r : des_result) : Prop :=
  let d := full l in let e := full (map enc (r_out d)) in
  R s' (t ++ r_out e) /\
  ((ds_reason r = RInsufficient /\ d_good ops s' = false /\
    exists pre suf c1 c2, l = pre ++ suf /\ Forall nostop pre /\ ds_stale r = srcs suf /\ r_out (full suf) = c1 ++ c2 /\
      Forall nostop (map enc (outs pre ++ c1)) /\ ds_dist r = zlen c1 /\ ds_size r = count + zlen (outs (map enc (outs pre ++ c1)))) \/
   (ds_size r = count + zlen (r_out e) /\
    (r_reason e = RCompleted -> ds_reason r = r_reason d /\ ds_stale r = r_rest d /\ ds_dist r = 0) /\
    (r_reason e <> RCompleted -> ds_reason r = r_reason e /\
      exists pre suf, l = pre ++ suf /\ Forall nostop pre /\ ds_stale r = srcs suf /\ 0 <= ds_dist r < pivot_size /\
        zlen pre + ds_dist r = zlen (r_out d) - zlen (r_rest e)))).

Lemma full_enc_app P E enc a b : encoding P E enc ->
  let fa := full (map enc a) in let fb := full (map enc b) in
  (r_reason fa = RCompleted -> full (map enc (a ++ b)) = mk_tr (r_rest fb) (r_out fa ++ r_out fb) (r_reason fb) (r_notes fa ++ r_notes fb)) /\
  (r_reason fa <> RCompleted -> full (map enc (a ++ b)) = mk_tr (r_rest fa ++ b) (r_out fa) (r_reason fa) (r_notes fa)).
Proof.
  intros HE. cbv zeta.
  assert (Hsa : forall x, Forall real_stop (map enc x)) by (intros x; eapply encoding_stop; exact HE).
  assert (Hz : zlen (outs (map enc (a ++ b))) = zlen (outs (map enc a)) + zlen (outs (map enc b))) by (rewrite map_app, outs_app, zlen_app; reflexivity).
  pose proof (zlen_nonneg (outs (map enc a))). pose proof (zlen_nonneg (outs (map enc b))).
  assert (Ea : run_steps (map enc a) (zlen (outs (map enc (a ++ b)))) = full (map enc a)) by (apply full_big; [apply Hsa|lia]).
  split; intros HC.
  - unfold full at 1. rewrite <- Ea in HC.
    destruct (enc_append_completed P E enc a b _ HE (zlen_nonneg _) HC) as [_ EA]. rewrite EA. rewrite Ea in *.
    rewrite full_big; [reflexivity|apply Hsa|]. rewrite Hz.
    destruct (enc_cut P E enc a (zlen (outs (map enc a))) HE (zlen_nonneg _)) as (c1 & c2 & E1 & H1 & H2 & _).
    unfold full. rewrite H1. lia.
  - unfold full at 1. rewrite <- Ea in HC. rewrite (enc_append_stopped P E enc a b _ HE (zlen_nonneg _) HC). rewrite Ea. reflexivity.
Qed.

Lemma inner_ok P E enc : encoding P E enc -> (forall c, zlen (st_out (enc c)) <= 64) ->
  forall fuel us s t src sr done count, Forall P us -> R s t -> r_out sr = done ++ us ->
  r_reason sr <> RUnsupported ->
  (length us + (if (64 <=? d_space ops s)%nat then 1 else 2) <= fuel)%nat ->
  let e := full (map enc us) in
  exists r, decode_encode_inner E ops fuel s src sr us count = Some r /\
   match r with
   | INext s' count' => R s' (t ++ r_out e) /\ r_reason e = RCompleted /\ r_reason sr = RInsufficient /\ count' = count + zlen (r_out e)
   | IStop s' z => R s' (t ++ r_out e) /\
      ((ds_reason z = RInsufficient /\ d_good ops s' = false /\
        exists c1 c2, us = c1 ++ c2 /\ Forall nostop (map enc c1) /\
          z = mk_des (count + zlen (outs (map enc c1))) src (zlen (done ++ c1)) RInsufficient) \/
       (ds_size z = count + zlen (r_out e) /\
        (r_reason e = RCompleted /\ r_reason sr <> RInsufficient /\ z = mk_des (ds_size z) (r_rest sr) 0 (r_reason sr) \/
         r_reason e = RUnsupported /\ z = mk_des (ds_size z) src (zlen (done ++ us) - zlen (r_rest e)) RUnsupported)))
   end.
Proof.
  intros HE H64. induction fuel as [|fuel IH]; intros us s t src sr done count HP HR Hsr Hnu HF e; [destruct (_ <=? _)%nat in HF; lia|].
  cbn [decode_encode_inner]. pose proof HE as [HE1 HE2]. rewrite HE1 by (auto; lia). cbn [obind].
  destruct (enc_cut P E enc us (Z.of_nat (d_space ops s)) HE ltac:(lia)) as (c1 & c2 & Ec & Ho & Hos & Hns & Hre & Hc).
  set (er := run_steps (map enc us) (Z.of_nat (d_space ops s))) in *. rewrite Ho.
  destruct (law_emit _ _ _ L s t (outs (map enc c1)) HR) as (s1 & E1 & R1 & _); [unfold zlen in Hos; lia|]. rewrite E1. cbn [obind].
  assert (Hstop : Forall real_stop (map enc us)) by (eapply encoding_stop; exact HE).
  assert (EF : r_reason er <> RInsufficient -> e = er).
  { intros HI. unfold e. unfold er in *. rewrite Ec in *. rewrite map_app in *. rewrite full_app by exact Hns.
    replace (Z.of_nat (d_space ops s)) with (zlen (outs (map enc c1)) + (Z.of_nat (d_space ops s) - zlen (outs (map enc c1)))) in * by lia.
    rewrite run_app in * by (try exact Hns; lia). cbn [r_reason] in *.
    destruct c2 as [|c c2].
    - cbn [map]. reflexivity.
    - cbn [map run_steps] in *. destruct (st_stop (enc c)) eqn:ES.
      + rewrite full_stop by congruence. rewrite ES. reflexivity.
      + exfalso. destruct (r_reason _) eqn:ER in Hc.
        * destruct Hc as [Hc _]. discriminate.
        * apply HI. exact ER.
        * exact Hc.
        * destruct Hc as (c' & m & X & Y & _). injection X as <- <-. congruence. }
  destruct (reason_eqb (r_reason er) RCompleted) eqn:EC.
  - apply reason_eqb_spec in EC. assert (e = er) as -> by (apply EF; congruence).
    destruct (reason_eqb (r_reason sr) RInsufficient) eqn:EI.
    + apply reason_eqb_spec in EI. eexists. split; [reflexivity|]. cbn iota. rewrite Ho. auto.
    + assert (r_reason sr <> RInsufficient) as NI by (intros X; apply reason_eqb_spec in X; congruence).
      replace (reason_eqb (r_reason sr) RCompleted || reason_eqb (r_reason sr) RInvalid) with true
        by (destruct (r_reason sr); [reflexivity|congruence|reflexivity|congruence]).
      cbn [assert obind]. eexists. split; [reflexivity|]. cbn iota. rewrite Ho. split; [exact R1|]. right. cbn [ds_size].
      split; [reflexivity|]. left. auto.
  - destruct (reason_eqb (r_reason er) RInsufficient) eqn:EI.
    + apply reason_eqb_spec in EI. rewrite EI in Hc. destruct Hc as (c & more & Ec2 & Nst & G & _).
      destruct (law_recycle _ _ _ L s1 _ R1) as [R2 Hsp].
      assert (F : r_out e = outs (map enc c1) ++ r_out (full (map enc c2)) /\ r_reason e = r_reason (full (map enc c2)) /\ r_rest e = r_rest (full (map enc c2))).
      { unfold e. rewrite Ec, map_app, full_app by exact Hns. auto. }
      destruct F as (F1 & F2 & F3).
      destruct (d_good ops (d_recycle ops s1)) eqn:EG; cbn [negb].
      * rewrite Hre.
        assert (HF' : (length c2 + (if (64 <=? d_space ops (d_recycle ops s1))%nat then 1 else 2) <= fuel)%nat).
        { destruct (Nat.leb_spec 64 (d_space ops (d_recycle ops s1))); [|lia]. rewrite Ec, app_length in HF.
          destruct (Nat.leb_spec 64 (d_space ops s)) as [Hb|Hb]; [|lia].
          destruct c1 as [|y c1]; [|cbn [length] in HF; lia]. exfalso. change (zlen (outs (map enc []))) with 0 in G. specialize (H64 c). lia. }
        assert (HP2 : Forall P c2) by (rewrite Ec in HP; apply Forall_app in HP; apply HP).
        destruct (IH c2 (d_recycle ops s1) (t ++ outs (map enc c1)) src sr (done ++ c1) (count + zlen (outs (map enc c1))) HP2 R2) as (r & Er & H); auto.
        { rewrite Hsr, Ec, app_assoc. reflexivity. }
        exists r. split; [exact Er|]. rewrite F1, F2, F3. destruct r as [s' n|s' z].
        -- destruct H as (H1 & H2 & H3 & H4). rewrite app_assoc. split; [exact H1|]. split; [exact H2|]. split; [exact H3|]. rewrite zlen_app. lia.
        -- destruct H as [H1 H2]. rewrite app_assoc. split; [exact H1|].
           destruct H2 as [(H2 & H3 & d1 & d2 & Q1 & Q2 & Q3)|[H2 H3]]; [left|right].
           { split; [exact H2|]. split; [exact H3|]. exists (c1 ++ d1), d2. split; [rewrite Ec, Q1, app_assoc; reflexivity|].
             rewrite map_app. split; [apply Forall_app; auto|]. rewrite Q3. f_equal; rewrite ?outs_app, ?zlen_app; lia. }
           split; [rewrite zlen_app; lia|]. rewrite Ec. rewrite app_assoc. exact H3.
      * eexists. split; [reflexivity|]. cbn iota. split; [rewrite F1, app_assoc; apply (law_bad _ _ _ L); assumption|]. left.
        split; [reflexivity|]. split; [exact EG|]. exists c1, c2. split; [exact Ec|]. split; [exact Hns|]. f_equal.
        rewrite Hsr, Hre, Ec, !zlen_app. lia.
    + assert (r_reason er = RUnsupported) as EU by (destruct (r_reason er); try discriminate; [contradiction|reflexivity]).
      rewrite EU. cbn [reason_eqb assert obind]. assert (e = er) as -> by (apply EF; congruence).
      eexists. split; [reflexivity|]. cbn iota. rewrite Ho. split; [exact R1|]. right. cbn [ds_size]. split; [reflexivity|]. right.
      split; [exact EU|]. rewrite Hsr. reflexivity.
Qed.

Lemma outer_ok P D E enc : encoding P E enc -> (forall c, zlen (st_out (enc c)) <= 64) ->
  forall fuel l s t count, decoding P D l -> R s t -> (length l < fuel)%nat ->
  exists s' r, decode_encode_outer D E ops fuel s (srcs l) count = Some (s', r) /\ ded_spec l enc s t count s' r.
Proof.
  intros HE H64. induction fuel as [|fuel IH]; intros l s t count HD HR HF; [lia|].
  destruct (dec_cut P D l pivot_size HD ltac:(unfold pivot_size; lia)) as (dn & td & El & Hn & Hlen & HDf & HP & HL & Hrest & Hout & Hre).
  cbn [decode_encode_outer]. rewrite HDf. cbn [obind]. set (dr := run_steps l pivot_size) in *.
  destruct (inner_ok P E enc HE H64 (Datatypes.S (Datatypes.S (length (r_out dr)))) (r_out dr) s t (srcs l) dr [] count) as (r & Er & H).
  { rewrite Hout; exact HP. } { exact HR. } { reflexivity. }
  { intros X. rewrite X in Hre. exact Hre. } { destruct (_ <=? _)%nat; lia. }
  cbv zeta in H. rewrite Er. cbn [obind].
  destruct r as [s' n|s' z].
  - destruct H as (H1 & H2 & H3 & H4). rewrite H3 in Hre. destruct Hre as (Hd16 & s0 & more & Etd & Nst & _).
    assert (HD' : decoding P D td) by (rewrite El in HD; eapply decoding_suffix; exact HD).
    assert (HF' : (length td < fuel)%nat).
    { rewrite El, app_length in HF. unfold zlen, pivot_size in Hd16. lia. }
    rewrite Hrest. destruct (IH td s' _ n HD' H1 HF') as (s2 & z & Ez & HS1 & HS2). exists s2, z. split; [exact Ez|].
    unfold ded_spec in *. rewrite El, full_app by exact Hn. cbn [r_out r_reason r_rest].
    rewrite Hout in H1, H2, H4. destruct (full_enc_app P E enc (outs dn) (r_out (full td)) HE) as [EA _]. rewrite (EA H2).
    cbn [r_out r_reason r_rest]. split; [rewrite app_assoc; rewrite Hout in HS1; exact HS1|].
    destruct HS2 as [(HS2 & HS3 & pr & suf & d1 & d2 & Q1 & Q2 & Q3 & Q4 & Q5 & Q6 & Q7)|(T0 & T1 & T2)]; [left|right].
    { assert (Hc : Forall nostop (map enc (outs dn)) /\ r_out (full (map enc (outs dn))) = outs (map enc (outs dn))).
      { destruct (enc_cut P E enc (outs dn) (zlen (outs (map enc (outs dn)))) HE (zlen_nonneg _)) as (e1 & e2 & Ec & Ho & _ & Hns & _ & Hc).
        change (run_steps (map enc (outs dn)) (zlen (outs (map enc (outs dn))))) with (full (map enc (outs dn))) in Ho, Hc.
        rewrite H2 in Hc. destruct Hc as [-> _]. rewrite app_nil_r in Ec. rewrite Ec in *. auto. }
      destruct Hc as [Hc1 Hc2].
      split; [exact HS2|]. split; [exact HS3|]. exists (dn ++ pr), suf, d1, d2. split; [rewrite Q1, app_assoc; reflexivity|].
      split; [apply Forall_app; auto|]. split; [exact Q3|]. split; [exact Q4|]. rewrite outs_app, <- app_assoc, map_app.
      split; [apply Forall_app; auto|]. split; [exact Q6|]. rewrite Hc2 in H4. rewrite outs_app, zlen_app. lia. }
    split; [rewrite zlen_app; lia|]. split; [exact T1|].
    intros HC. destruct (T2 HC) as (T3 & pr & suf & T4 & TN & T5 & T6 & T7). split; [exact T3|].
    exists (dn ++ pr), suf. split; [rewrite T4, app_assoc; reflexivity|]. split; [apply Forall_app; auto|]. split; [exact T5|]. split; [exact T6|]. rewrite !zlen_app, HL. lia.
  - exists s', z. split; [reflexivity|]. destruct H as [H1 H2]. rewrite Hout in *. unfold ded_spec.
    destruct (full_enc_app P E enc (outs dn)) with (b := r_out (full td)) as [EA EB]; [exact HE|].
    assert (Hfull : exists more, r_out (full l) = outs dn ++ more /\ (r_reason dr <> RInsufficient -> more = [] /\ full l = dr) /\
       (r_reason dr = RInsufficient -> more = r_out (full td))).
    { destruct (r_reason dr) eqn:ED.
      - destruct Hre as [_ ->]. exists []. rewrite app_nil_r, Hout. split; [reflexivity|]. split; [auto|congruence].
      - rewrite El, full_app by exact Hn. exists (r_out (full td)). split; [reflexivity|]. split; [congruence|auto].
      - rewrite Hre. exists []. rewrite app_nil_r, Hout. split; [reflexivity|]. split; [auto|congruence].
      - contradiction. }
    destruct Hfull as (more & F1 & F2 & F3). rewrite F1.
    destruct (full_enc_app P E enc (outs dn) more HE) as [GA GB].
    assert (Hpos : r_reason (full (map enc (outs dn))) <> RCompleted -> 0 < zlen (r_rest (full (map enc (outs dn)))) <= zlen (outs dn)).
    { intros X. destruct (enc_cut P E enc (outs dn) (zlen (outs (map enc (outs dn)))) HE (zlen_nonneg _)) as (c1 & c2 & Ec & _ & _ & _ & Hr & Hc).
      assert (zlen (outs dn) = zlen c1 + zlen c2) as Ez by (rewrite Ec, zlen_app; reflexivity).
      unfold full in X |- *. rewrite Hr. pose proof (zlen_nonneg c1).
      destruct (r_reason _) eqn:Q in Hc; [congruence| |contradiction|]; destruct Hc as (c & m & -> & _); rewrite zlen_cons in *; pose proof (zlen_nonneg m); lia. }
    destruct (reason_eqb (r_reason (full (map enc (outs dn)))) RCompleted) eqn:EC.
    + apply reason_eqb_spec in EC. rewrite (GA EC). cbn [r_out r_reason r_rest].
      destruct H2 as [(H2 & H3 & d1 & d2 & Q1 & Q2 & Q3)|[H2 [(_ & Hni & Hz)|(H3 & _)]]]; [|destruct (F2 Hni) as [-> EF]|congruence].
      * split; [rewrite app_assoc; apply (law_bad _ _ _ L); assumption|]. left. split; [exact H2|]. split; [exact H3|].
        exists [], l, d1, (d2 ++ more). split; [reflexivity|]. split; [constructor|]. rewrite Q3. cbn [ds_stale ds_dist ds_size outs concat map app].
        split; [reflexivity|]. split; [rewrite F1, Q1, app_assoc; reflexivity|]. split; [exact Q2|]. split; reflexivity.
      * cbn [map]. change (full []) with (mk_tr [] [] RCompleted []). cbn [r_out r_reason r_rest]. rewrite !app_nil_r.
        split; [exact H1|]. right. split; [exact H2|]. split; [|intros X; exfalso; apply X; reflexivity]. intros _. rewrite EF. rewrite Hz. auto.
    + assert (EC' : r_reason (full (map enc (outs dn))) <> RCompleted) by (intros X; apply reason_eqb_spec in X; congruence).
      rewrite (GB EC'). cbn [r_out r_reason r_rest]. split; [exact H1|].
      destruct H2 as [(H2 & HG & d1 & d2 & Q1 & Q2 & Q3)|[H2 [(H3 & _)|(H3 & Hz)]]]; [left|congruence|].
      { split; [exact H2|]. split; [exact HG|]. exists [], l, d1, (d2 ++ more). split; [reflexivity|]. split; [constructor|].
        rewrite Q3. cbn [ds_stale ds_dist ds_size outs concat map app].
        split; [reflexivity|]. split; [rewrite F1, Q1, app_assoc; reflexivity|]. split; [exact Q2|]. split; reflexivity. }
      right. split; [exact H2|]. split; [congruence|]. intros _. rewrite Hz, H3. cbn [ds_reason ds_stale ds_dist app]. split; [reflexivity|].
      exists [], l. split; [reflexivity|]. split; [constructor|]. split; [reflexivity|]. specialize (Hpos EC'). rewrite !zlen_app. change (zlen (@nil step)) with 0. split; [lia|]. lia.
Qed.
Lemma decode_encode_dest_ok P D E enc fuel l s t : encoding P E enc -> (forall c, zlen (st_out (enc c)) <= 64) ->
  decoding P D l -> R s t -> (length l < fuel)%nat ->
  exists s' r, decode_encode_dest D E ops fuel s (srcs l) = Some (s', r) /\ ded_spec l enc s t 0 s' r.
Proof.
  intros HE H64 HD HR HF. unfold decode_encode_dest. destruct (d_good ops s) eqn:G; cbn [negb].
  - eapply outer_ok; eauto.
  - eexists _, _. split; [reflexivity|]. split; [apply (law_bad _ _ _ L); assumption|]. left. split; [reflexivity|]. split; [exact G|].
    exists [], l, [], (r_out (full l)). cbn [ds_stale ds_dist ds_size]. repeat split; constructor.
Qed.
End Dest.
