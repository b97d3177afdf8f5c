(* Proofs about TrModel. *)
From Verif Require Import Base WidthModel WidthProofs DestModel DestProofs UtfSpec UtfForms SbcsModel CsetModel CsetProofs Properties_Pivot WCalcModel WCalcProofs
  PrintModel StringModel ToModel RangeModel TrModel PrintSpec StringSpec TrSpec PrintProofs SegProofs ToProofs RoomProofs.

Scheme parses_mut := Induction for parses Sort Prop with field_mut := Induction for field Sort Prop.
Combined Scheme tr_ind from parses_mut, field_mut.

(* ---- str_find ---- *)
Lemma str_find_some (c : Z) p r : ~ In c p -> str_find c (p ++ c :: r) = Some (p, r).
Proof.
  induction p as [|x p IH]; intros H; cbn [app str_find].
  - rewrite Z.eqb_refl. reflexivity.
  - destruct (Z.eqb_spec x c) as [->|]; [exfalso; apply H; left; reflexivity|]. rewrite IH by (intros HI; apply H; right; exact HI). reflexivity.
Qed.
Lemma str_find_none (c : Z) p : ~ In c p -> str_find c p = None.
Proof.
  induction p as [|x p IH]; intros H; cbn [str_find]; [reflexivity|].
  destruct (Z.eqb_spec x c) as [->|]; [exfalso; apply H; left; reflexivity|]. rewrite IH by (intros HI; apply H; right; exact HI). reflexivity.
Qed.
Lemma str_find_split (c : Z) s : ~ In c s \/ exists p r, s = p ++ c :: r /\ ~ In c p.
Proof.
  induction s as [|x s [IH|(p & r & -> & H)]]; [left; intros []| |].
  - destruct (Z.eq_dec x c) as [->|]; [right; exists [], s; split; [reflexivity|intros []]|left; intros [|]; auto].
  - destruct (Z.eq_dec x c) as [->|]; [right; exists [], (p ++ c :: r); split; [reflexivity|intros []]|].
    right. exists (x :: p), r. split; [reflexivity|]. intros [|]; auto.
Qed.

(* ---- read_uint ---- *)
Lemma value_snoc ds d : value (ds ++ [d]) = 10 * value ds + (d - 48).
Proof. unfold value. rewrite fold_left_app. reflexivity. Qed.
Lemma value_ge ds : Forall is_digit ds -> forall v, 0 <= v -> v <= fold_left (fun v d => 10 * v + (d - 48)) ds v.
Proof.
  induction 1 as [|d ds Hd HF IH]; intros v Hv; cbn [fold_left]; [lia|]. unfold is_digit in Hd. etransitivity; [|apply IH; lia]. lia.
Qed.
Definition digit_start (c : list Z) : Prop := match c with [] => True | x :: _ => ~ is_digit x end.
Lemma read_digits_ok limit tail : 0 <= limit < 2 ^ 59 -> digit_start tail -> forall ds, Forall is_digit ds -> forall v, 0 <= v -> v < limit \/ v <= 9 ->
  exists x ds', read_digits limit v (ds ++ tail) = Some (x, ds' ++ tail) /\ Forall is_digit ds' /\ 0 <= x /\
    let V := fold_left (fun v d => 10 * v + (d - 48)) ds v in (x < limit -> x = V) /\ (limit <= x -> limit <= V).
Proof.
  intros HL HT. induction 1 as [|d ds Hd HF IH]; intros v Hv Hs; cbn [app].
  - exists v, []. cbn [app fold_left]. split; [|repeat split; auto; lia].
    destruct tail as [|x tail]; cbn [read_digits]; [reflexivity|]. cbn in HT. unfold is_digit in HT.
    replace ((x <? 48) || (57 <? x)) with true by lia. reflexivity.
  - unfold is_digit in Hd. cbn [read_digits fold_left]. replace ((d <? 48) || (57 <? d)) with false by lia.
    rewrite chk64 by lia. cbn [obind]. rewrite chk64 by lia. cbn [obind]. replace (10 * v) with (v * 10) by lia. destruct (Z.leb_spec limit (v * 10 + (d - 48))).
    + rewrite chk64 by lia. cbn [obind]. exists (limit + 1), (d :: ds). split; [reflexivity|]. split; [constructor; assumption|]. split; [lia|]. split; [lia|].
      intros _. pose proof (value_ge ds HF (v * 10 + (d - 48)) ltac:(lia)). lia.
    + destruct (IH (v * 10 + (d - 48)) ltac:(lia) ltac:(lia)) as (x & ds' & E & H1 & H2 & H3). exists x, ds'. auto.
Qed.
Lemma read_uint_ok limit ds tail : 0 <= limit < 2 ^ 59 -> ds <> [] -> Forall is_digit ds -> digit_start tail ->
  exists x ds', read_uint (ds ++ tail) limit = Some (x, ds' ++ tail) /\ Forall is_digit ds' /\ 0 <= x /\
    (x < limit -> x = value ds) /\ (limit <= x -> limit <= value ds).
Proof.
  intros HL HN HD HT. destruct HD as [|d ds Hd HF]; [contradiction|]. unfold is_digit in Hd. cbn [app read_uint].
  destruct (read_digits_ok limit tail HL HT ds HF (d - 48) ltac:(lia) ltac:(lia)) as (x & ds' & E & H1 & H2 & H3). exists x, ds'.
  split; [exact E|]. split; [exact H1|]. split; [exact H2|]. unfold value. cbn [fold_left]. replace (10 * 0 + (d - 48)) with (d - 48) by lia. exact H3.
Qed.
Lemma digits_no_brace ds : Forall is_digit ds -> ~ In close_brace ds.
Proof. intros H HI. rewrite Forall_forall in H. apply H in HI. unfold is_digit, close_brace in HI. lia. Qed.

(* ---- every string parses ---- *)
Lemma digit_dec x : {is_digit x} + {~ is_digit x}.
Proof. unfold is_digit. destruct (Z_le_dec 48 x), (Z_le_dec x 57); [left; lia|right; lia|right; lia|right; lia]. Qed.
Lemma span_digits s : exists ds c, s = ds ++ c /\ Forall is_digit ds /\ digit_start c.
Proof.
  induction s as [|x s (ds & c & -> & H1 & H2)]; [exists [], []; repeat split; constructor|].
  destruct (digit_dec x) as [Hx|Hx]; [exists (x :: ds), c; repeat split; auto|]. exists [], (x :: ds ++ c). repeat split; auto.
Qed.
Lemma tr_exists n : forall s, (length s < n)%nat -> (forall pos, exists ps, parses pos s ps) /\ (forall pos, exists ps, field pos s ps).
Proof.
  induction n as [|n IH]; intros s Hs; [lia|].
  assert (forall pos, exists ps, field pos s ps) as HF.
  { intros pos. destruct s as [|x s]; [exists [Next (pos - 1)]; constructor|]. cbn [length] in Hs.
    destruct (Z.eq_dec x close_brace) as [->|N1].
    { destruct (IH s ltac:(lia)) as [H _]. destruct (H (pos + 1)) as [ps Hp]. eexists. apply field_next, Hp. }
    destruct (Z.eq_dec x open_brace) as [->|N2].
    { destruct (str_find_split open_brace s) as [HN|(p & r & -> & HN)]; [eexists; apply field_escape_last, HN|].
      rewrite app_length in Hs. cbn [length] in Hs. destruct (IH r ltac:(lia)) as [_ H]. destruct (H (pos + 1 + zlen p + 1)) as [ps Hp]. eexists. apply field_escape; [exact HN|exact Hp]. }
    destruct (Z.eq_dec x dash) as [->|N3].
    { destruct (str_find_split close_brace s) as [HN|(p & r & -> & HN)]; [eexists; apply field_comment_end, HN|].
      rewrite app_length in Hs. cbn [length] in Hs. destruct (IH r ltac:(lia)) as [H _]. destruct (H (pos + 1 + zlen p + 1)) as [ps Hp]. eexists. apply field_comment; [exact HN|exact Hp]. }
    destruct (digit_dec x) as [Hx|Hx].
    { destruct (span_digits s) as (ds & c & -> & Hd & Hc). destruct (str_find_split close_brace c) as [HN|(p & r & -> & HN)].
      - eexists. apply (field_index_end pos (x :: ds) c); [discriminate|constructor; assumption|exact HN|exact Hc].
      - rewrite !app_length in Hs. cbn [length] in Hs. destruct (IH r ltac:(lia)) as [H _]. destruct (H (pos + zlen (x :: ds) + zlen p + 1)) as [ps Hp].
        eexists. apply (field_index pos (x :: ds) p r); [discriminate|constructor; assumption|exact HN| |exact Hp]. destruct p; [exact I|exact Hc]. }
    destruct (str_find_split close_brace s) as [HN|(p & r & -> & HN)]; [eexists; apply field_other_end; assumption|].
    rewrite app_length in Hs. cbn [length] in Hs. destruct (IH r ltac:(lia)) as [H _]. destruct (H (pos + 1 + zlen p + 1)) as [ps Hp]. eexists. apply field_other; eassumption. }
  split; [|exact HF]. intros pos. destruct (str_find_split open_brace s) as [HN|(p & r & -> & HN)].
  - destruct s as [|x s]; [exists []; constructor|]. eexists. apply parses_last; [discriminate|exact HN].
  - rewrite app_length in Hs. cbn [length] in Hs. destruct (IH r ltac:(lia)) as [_ H]. destruct (H (pos + zlen p + 1)) as [ps Hp]. eexists. apply parses_field; [exact HN|exact Hp].
Qed.

(* ---- writing ---- *)
Lemma replacement_ok b : op_wf (replacement_op b) /\ op_text (replacement_op b) = replacement_text b /\ zlen (replacement_text b) = replacement_size b.
Proof. destruct b as [[| |]|i cs]; split; try (split; reflexivity); cbn; try exact I; try lia. Qed.

Lemma nth_ok {A B} (P : A -> B -> Prop) l m d i : Forall2 P l m -> (i < length l)%nat -> exists x, nth_error l i = Some x /\ P x (nth i m d).
Proof.
  intros H. revert i. induction H as [|a b l m Hab HF IH]; intros [|i] HI; cbn [length nth_error nth] in *; try lia; [eauto|]. apply IH. lia.
Qed.
Lemma replacement_tight b : tight (replacement_op b).
Proof. destruct b as [[| |]|i cs]; cbn; try exact I; lia. Qed.
Section WriteProofs.
  Variables (b : cset) (printers : list printer) (ts : list (list Z)).
  Hypothesis HP : Forall2 prints_text printers ts.
  Hypothesis HN : zlen printers < 2 ^ 59.
  Let n := zlen printers.
  Variables (St : Type) (ops : dest_ops St) (R : St -> list Z -> Prop) (ok : list Z -> Prop) (L : laws ops R ok).
  Lemma first_ok st u i is_ : R st u -> ok (u ++ items_text b ts (i :: is_)) -> ok (u ++ item_text b ts i).
  Proof using L. intros H K. exact (laws_cut ops R ok st u _ _ L H K). Qed.
  Lemma rest_ok u i is_ : ok (u ++ items_text b ts (i :: is_)) -> ok ((u ++ item_text b ts i) ++ items_text b ts is_).
  Proof using. rewrite <- app_assoc. exact (fun K => K). Qed.
  Lemma tr_print_arg_ok k a s u : 0 <= k -> R s u -> ok (u ++ item_text b ts (refer n k a)) ->
    exists s', tr_print_arg b printers ops k (a + 1) s = Some (s', errors [refer n k a]) /\ R s' (u ++ item_text b ts (refer n k a)).
  Proof using HP L.
    intros Hk HR K. unfold tr_print_arg, refer in *. fold n. fold n in K. destruct (Z.ltb_spec k n) as [HL|HL]; cbn [item_text] in *.
    - assert (exists pr t, nth_error printers (Z.to_nat k) = Some pr /\ nth (Z.to_nat k) ts [] = t /\ prints_text pr t) as (pr & t & E1 & E2 & E3).
      { destruct (nth_ok prints_text printers ts [] (Z.to_nat k) HP) as (pr & E & Hpr); [unfold n, zlen in HL; lia|]. eauto. }
      rewrite E2 in K. rewrite E1, E2. cbn [obind]. destruct (prints_use _ _ E3 St ops R ok L s u HR K) as (s1 & -> & H1). cbn [obind]. exists s1. split; [reflexivity|exact H1].
    - destruct (replacement_ok b) as (W1 & W2 & _). rewrite <- W2 in K. destruct (laws_op ops R ok s u (replacement_op b) L W1 (replacement_tight b) HR K) as (s1 & E & H1).
      rewrite E. cbn [obind]. exists s1. cbn [errors map concat app]. split; [do 2 f_equal; f_equal; lia|]. rewrite <- W2. exact H1.
  Qed.
  Lemma errors_cons i is_ : errors (i :: is_) = errors [i] ++ errors is_.
  Proof. unfold errors. cbn [map concat]. rewrite app_nil_r. reflexivity. Qed.
  Lemma next_idx_min next : 0 <= next -> next_idx printers (Z.min next n) = Z.min (next + 1) n.
  Proof. intros H. unfold next_idx. fold n. destruct (Z.ltb_spec (Z.min next n) n); lia. Qed.
  Lemma refer_min next a : refer n (Z.min next n) a = refer n next a.
  Proof. unfold refer. destruct (Z.ltb_spec next n); [replace (Z.min next n) with next by lia; replace (next <? n) with true by lia; reflexivity|replace (Z.min next n <? n) with false by lia; reflexivity]. Qed.
  Definition writes (after : bool) (pos : Z) (s : list Z) (ps : list piece) : Prop :=
    forall fuel next st u, (length s < fuel)%nat -> 0 <= next -> R st u -> ok (u ++ items_text b ts (resolve n next ps)) ->
    exists st', tr_write b printers fuel after pos s (Z.min next n) ops st = Some (st', errors (resolve n next ps)) /\
      R st' (u ++ items_text b ts (resolve n next ps)).
  Lemma tr_write_ok : (forall pos s ps, parses pos s ps -> writes false pos s ps) /\ (forall pos s ps, field pos s ps -> writes true pos s ps).
  Proof using HP HN L.
    assert (0 <= n) as Hn0 by apply zlen_nonneg.
    apply tr_ind.
    - intros pos fuel next st u Hf Hx HR K. cbn [resolve] in K. destruct fuel; [lia|]. exists st. cbn. rewrite app_nil_r. auto.
    - intros pos s HNE HNI fuel next st u Hf Hx HR K. cbn [resolve] in K. destruct fuel as [|fuel]; [lia|]. cbn [tr_write negb resolve]. destruct s as [|x s]; [contradiction|].
      rewrite str_find_none by exact HNI. destruct (laws_write ops R ok st u (x :: s) L HR (first_ok _ _ _ _ HR K)) as (s1 & -> & H1). cbn [obind]. exists s1. split; [reflexivity|].
      cbn [items_text map concat item_text]. unfold items_text. cbn [map concat item_text]. rewrite app_nil_r. exact H1.
    - intros pos s r ps HNI _ IH fuel next st u Hf Hx HR K. cbn [resolve] in K. destruct fuel as [|fuel]; [lia|]. rewrite app_length in Hf. cbn [length] in Hf.
      cbn [tr_write negb]. destruct (s ++ open_brace :: r) eqn:ES; [destruct s; discriminate|]. rewrite <- ES. rewrite str_find_some by exact HNI.
      destruct (laws_write ops R ok st u s L HR (first_ok _ _ _ _ HR K)) as (s1 & -> & H1). cbn [obind]. destruct (IH fuel next s1 _ ltac:(lia) Hx H1 (rest_ok _ _ _ K)) as (s2 & E & H2). exists s2.
      split; [rewrite E; reflexivity|]. cbn [resolve]. unfold items_text in *. cbn [map concat item_text]. rewrite app_assoc. exact H2.
    - intros pos fuel next st u Hf Hx HR K. cbn [resolve] in K. destruct fuel as [|fuel]; [lia|]. cbn [tr_write negb].
      destruct (tr_print_arg_ok (Z.min next n) (pos - 1) st u ltac:(lia) HR ltac:(rewrite refer_min; exact (first_ok _ _ _ _ HR K))) as (s1 & E & H1). rewrite refer_min in *. replace (pos - 1 + 1) with pos in E by lia.
      exists s1. split; [exact E|]. cbn [resolve]. unfold items_text. cbn [map concat]. rewrite app_nil_r. exact H1.
    - intros pos r ps _ IH fuel next st u Hf Hx HR K. cbn [resolve] in K. destruct fuel as [|fuel]; [lia|]. cbn [length] in Hf. cbn [tr_write negb]. change (close_brace =? 125) with true. cbv iota.
      destruct (tr_print_arg_ok (Z.min next n) (pos - 1) st u ltac:(lia) HR ltac:(rewrite refer_min; exact (first_ok _ _ _ _ HR K))) as (s1 & E & H1). rewrite refer_min in *. replace (pos - 1 + 1) with pos in E by lia.
      rewrite E. cbn [obind fst snd]. rewrite next_idx_min by lia. destruct (IH fuel (next + 1) s1 _ ltac:(lia) ltac:(lia) H1 (rest_ok _ _ _ K)) as (s2 & E2 & H2).
      unfold with_errors. rewrite E2. cbn [obind fst snd resolve]. rewrite (errors_cons (refer n next (pos - 1)) (resolve n (next + 1) ps)). exists s2. split; [reflexivity|]. unfold items_text in *. cbn [map concat]. rewrite app_assoc. exact H2.
    - intros pos c r ps HNI _ IH fuel next st u Hf Hx HR K. cbn [resolve] in K. destruct fuel as [|fuel]; [lia|]. cbn [length] in Hf. rewrite app_length in Hf. cbn [length] in Hf. cbn [tr_write negb].
      change (dash =? 125) with false. change ((48 <=? dash) && (dash <=? 57)) with false. change (dash =? 123) with false. change (dash =? 45) with true. cbn [negb obind]. cbv iota.
      rewrite str_find_some by exact HNI. cbn [fst snd]. destruct (IH fuel next st u ltac:(lia) Hx HR K) as (s2 & E2 & H2). unfold with_errors. rewrite E2. cbn [obind fst snd app]. exists s2. auto.
    - intros pos c HNI fuel next st u Hf Hx HR K. cbn [resolve] in K. destruct fuel as [|fuel]; [lia|]. cbn [tr_write negb].
      change (dash =? 125) with false. change ((48 <=? dash) && (dash <=? 57)) with false. change (dash =? 123) with false. change (dash =? 45) with true. cbn [negb obind]. cbv iota.
      rewrite str_find_none by exact HNI. exists st. split; [reflexivity|]. cbn. rewrite app_nil_r. exact HR.
    - intros pos ds c r ps HNE HD HNI HT _ IH fuel next st u Hf Hx HR K. cbn [resolve] in K. destruct fuel as [|fuel]; [lia|]. rewrite !app_length in Hf. cbn [length] in Hf. cbn [tr_write negb].
      destruct (read_uint_ok n ds (c ++ close_brace :: r) ltac:(lia) HNE HD) as (x & ds' & E & D1 & D2 & D3 & D4).
      { destruct c; cbn; [unfold is_digit, close_brace; lia|exact HT]. }
      assert (refer n x (pos - 1) = refer n (value ds) (pos - 1)) as ER.
      { unfold refer. destruct (Z.ltb_spec x n); [rewrite <- D3 by lia; replace (x <? n) with true by lia; reflexivity|replace (value ds <? n) with false by lia; reflexivity]. }
      set (it := ds ++ c ++ close_brace :: r) in *. destruct it as [|ch rest] eqn:EI; [destruct ds; [contradiction|discriminate]|].
      assert (is_digit ch) as Hch by (unfold it in EI; destruct ds; [contradiction|injection EI as <- _; inversion HD; assumption]). unfold is_digit in Hch.
      replace (ch =? 125) with false by lia. replace ((48 <=? ch) && (ch <=? 57)) with true by lia. cbv iota. fold n. rewrite E. cbn [obind fst snd].
      destruct (tr_print_arg_ok x (pos - 1) st u D2 HR ltac:(rewrite ER; exact (first_ok _ _ _ _ HR K))) as (s1 & E1 & H1). replace (pos - 1 + 1) with pos in E1 by lia. rewrite E1. cbn [obind fst snd].
      replace (ds' ++ c ++ close_brace :: r) with ((ds' ++ c) ++ close_brace :: r) by (rewrite app_assoc; reflexivity).
      rewrite str_find_some by (rewrite in_app_iff; intros [HI|HI]; [exact (digits_no_brace ds' D1 HI)|exact (HNI HI)]).
      rewrite ER in *. destruct (IH fuel next s1 _ ltac:(lia) Hx H1 (rest_ok _ _ _ K)) as (s2 & E2 & H2).
      replace (pos + (zlen (ch :: rest) - zlen r)) with (pos + zlen ds + zlen c + 1) by (rewrite <- EI; unfold it; rewrite !zlen_app, zlen_cons; lia).
      unfold with_errors. rewrite E2. cbn [obind fst snd resolve].
      rewrite (errors_cons (refer n (value ds) (pos - 1)) (resolve n next ps)). exists s2. split; [reflexivity|]. unfold items_text in *. cbn [map concat]. rewrite app_assoc. exact H2.
    - intros pos ds c HNE HD HNI HT fuel next st u Hf Hx HR K. cbn [resolve] in K. destruct fuel as [|fuel]; [lia|]. cbn [tr_write negb].
      destruct (read_uint_ok n ds c ltac:(lia) HNE HD HT) as (x & ds' & E & D1 & D2 & D3 & D4).
      assert (refer n x (pos - 1) = refer n (value ds) (pos - 1)) as ER.
      { unfold refer. destruct (Z.ltb_spec x n); [rewrite <- D3 by lia; replace (x <? n) with true by lia; reflexivity|replace (value ds <? n) with false by lia; reflexivity]. }
      set (it := ds ++ c) in *. destruct it as [|ch rest] eqn:EI; [destruct ds; [contradiction|discriminate]|].
      assert (is_digit ch) as Hch by (unfold it in EI; destruct ds; [contradiction|injection EI as <- _; inversion HD; assumption]). unfold is_digit in Hch.
      replace (ch =? 125) with false by lia. replace ((48 <=? ch) && (ch <=? 57)) with true by lia. cbv iota. fold n. rewrite E. cbn [obind fst snd].
      destruct (tr_print_arg_ok x (pos - 1) st u D2 HR ltac:(rewrite ER; exact (first_ok _ _ _ _ HR K))) as (s1 & E1 & H1). replace (pos - 1 + 1) with pos in E1 by lia. rewrite E1. cbn [obind fst snd].
      rewrite str_find_none by (rewrite in_app_iff; intros [HI|HI]; [exact (digits_no_brace ds' D1 HI)|exact (HNI HI)]).
      rewrite ER in *. exists s1. split; [reflexivity|]. cbn [resolve]. unfold items_text. cbn [map concat]. rewrite app_nil_r. exact H1.
    - intros pos s HNI fuel next st u Hf Hx HR K. cbn [resolve] in K. destruct fuel as [|fuel]; [lia|]. cbn [tr_write negb].
      change (open_brace =? 125) with false. change ((48 <=? open_brace) && (open_brace <=? 57)) with false. change (open_brace =? 123) with true. cbv iota.
      rewrite str_find_none by exact HNI. destruct (laws_write ops R ok st u (open_brace :: s) L HR (first_ok _ _ _ _ HR K)) as (s1 & -> & H1). cbn [obind]. exists s1. split; [reflexivity|].
      cbn [resolve]. unfold items_text. cbn [map concat item_text]. rewrite app_nil_r. exact H1.
    - intros pos s r ps HNI _ IH fuel next st u Hf Hx HR K. cbn [resolve] in K. destruct fuel as [|fuel]; [lia|]. cbn [length] in Hf. rewrite app_length in Hf. cbn [length] in Hf. cbn [tr_write negb].
      change (open_brace =? 125) with false. change ((48 <=? open_brace) && (open_brace <=? 57)) with false. change (open_brace =? 123) with true. cbv iota.
      rewrite str_find_some by exact HNI. destruct (laws_write ops R ok st u (open_brace :: s) L HR (first_ok _ _ _ _ HR K)) as (s1 & -> & H1). cbn [obind].
      destruct (IH fuel next s1 _ ltac:(lia) Hx H1 (rest_ok _ _ _ K)) as (s2 & E & H2). exists s2. split; [rewrite E; reflexivity|]. cbn [resolve]. unfold items_text in *. cbn [map concat item_text]. rewrite app_assoc. exact H2.
    - intros pos x c r ps N1 N2 N3 N4 HNI _ IH fuel next st u Hf Hx HR K. cbn [resolve] in K. destruct fuel as [|fuel]; [lia|]. cbn [length] in Hf. rewrite app_length in Hf. cbn [length] in Hf. cbn [tr_write negb].
      unfold dash, open_brace, close_brace, is_digit in N1, N2, N3, N4.
      replace (x =? 125) with false by lia. replace ((48 <=? x) && (x <=? 57)) with false by lia. replace (x =? 123) with false by lia. replace (x =? 45) with false by lia. cbn [negb]. cbv iota.
      destruct (tr_print_arg_ok (Z.min next n) (pos - 1) st u ltac:(lia) HR ltac:(rewrite refer_min; exact (first_ok _ _ _ _ HR K))) as (s1 & E & H1). rewrite refer_min in *. replace (pos - 1 + 1) with pos in E by lia.
      rewrite E. cbn [obind fst snd]. rewrite next_idx_min by lia. rewrite str_find_some by exact HNI. destruct (IH fuel (next + 1) s1 _ ltac:(lia) ltac:(lia) H1 (rest_ok _ _ _ K)) as (s2 & E2 & H2).
      unfold with_errors. rewrite E2. cbn [obind fst snd resolve]. rewrite (errors_cons (refer n next (pos - 1)) (resolve n (next + 1) ps)). exists s2. split; [reflexivity|]. unfold items_text in *. cbn [map concat]. rewrite app_assoc. exact H2.
    - intros pos x c N1 N2 N3 N4 HNI fuel next st u Hf Hx HR K. cbn [resolve] in K. destruct fuel as [|fuel]; [lia|]. cbn [tr_write negb].
      unfold dash, open_brace, close_brace, is_digit in N1, N2, N3, N4.
      replace (x =? 125) with false by lia. replace ((48 <=? x) && (x <=? 57)) with false by lia. replace (x =? 123) with false by lia. replace (x =? 45) with false by lia. cbn [negb]. cbv iota.
      destruct (tr_print_arg_ok (Z.min next n) (pos - 1) st u ltac:(lia) HR ltac:(rewrite refer_min; exact (first_ok _ _ _ _ HR K))) as (s1 & E & H1). rewrite refer_min in *. replace (pos - 1 + 1) with pos in E by lia.
      rewrite E. cbn [obind fst snd]. rewrite str_find_none by exact HNI. exists s1. split; [reflexivity|]. cbn [resolve]. unfold items_text. cbn [map concat]. rewrite app_nil_r. exact H1.
  Qed.
End WriteProofs.

(* ---- measuring ---- *)
Section MeasureProofs.
  Variables (T : Type) (account_arg : Z -> T -> option (T * bool)) (account_string : list Z -> T -> option (T * bool)) (n : Z).
  Hypothesis HN : 0 <= n < 2 ^ 59.
  Variables (all : list item) (Inv : list item -> T -> Prop) (Stop : T -> Prop).
  Hypothesis arg_step : forall done k a t, 0 <= k -> is_prefix (done ++ [refer n k a]) all -> Inv done t ->
    exists t' b, account_arg k t = Some (t', b) /\ Inv (done ++ [refer n k a]) t' /\ (b = true -> Stop t').
  Hypothesis string_step : forall done s t, is_prefix (done ++ [Lit s]) all -> Inv done t ->
    exists t' b, account_string s t = Some (t', b) /\ Inv (done ++ [Lit s]) t' /\ (b = true -> Stop t').
  Definition reaches (is_ : list item) (t : T) : Prop :=
    Inv is_ t \/ exists dn, is_prefix dn all /\ Inv dn t /\ Stop t.
  Definition measures (after : bool) (s : list Z) (ps : list piece) : Prop :=
    forall fuel next done t, (length s < fuel)%nat -> 0 <= next -> is_prefix (done ++ resolve n next ps) all -> Inv done t ->
    exists t', tr_premeasure T account_arg account_string n fuel after s next t = Some t' /\ reaches (done ++ resolve n next ps) t'.
  Lemma prefix_step done i is_ : is_prefix (done ++ i :: is_) all -> is_prefix (done ++ [i]) all /\ is_prefix ((done ++ [i]) ++ is_) all.
  Proof. intros H. rewrite <- app_assoc. cbn [app]. split; [|exact H]. destruct H as [v ->]. exists (is_ ++ v). rewrite <- !app_assoc. reflexivity. Qed.
  Lemma arg_last done k a t : 0 <= k -> is_prefix (done ++ [refer n k a]) all -> Inv done t ->
    exists t', (do r <- account_arg k t ; Some (fst r)) = Some t' /\ reaches (done ++ [refer n k a]) t'.
  Proof using All. intros Hk HPf HI. destruct (arg_step done k a t Hk HPf HI) as (t1 & b & E & I1 & _). rewrite E. cbn [obind fst]. exists t1. split; [reflexivity|left; exact I1]. Qed.
  Lemma string_last done s t : is_prefix (done ++ [Lit s]) all -> Inv done t ->
    exists t', (do r <- account_string s t ; Some (fst r)) = Some t' /\ reaches (done ++ [Lit s]) t'.
  Proof using All. intros HPf HI. destruct (string_step done s t HPf HI) as (t1 & b & E & I1 & _). rewrite E. cbn [obind fst]. exists t1. split; [reflexivity|left; exact I1]. Qed.
  Lemma arg_go done k a t is_ cont : 0 <= k -> is_prefix (done ++ refer n k a :: is_) all -> Inv done t ->
    (forall t1, Inv (done ++ [refer n k a]) t1 -> is_prefix ((done ++ [refer n k a]) ++ is_) all -> exists t', cont t1 = Some t' /\ reaches ((done ++ [refer n k a]) ++ is_) t') ->
    exists t', continue_if T (account_arg k t) cont = Some t' /\ reaches (done ++ refer n k a :: is_) t'.
  Proof using All.
    intros Hk HPf HI HC. destruct (prefix_step _ _ _ HPf) as [P1 P2]. destruct (arg_step done k a t Hk P1 HI) as (t1 & b & E & I1 & HS).
    unfold continue_if. rewrite E. cbn [obind fst snd]. destruct b.
    - exists t1. split; [reflexivity|]. right. eexists. split; [exact P1|]. split; [exact I1|apply HS; reflexivity].
    - destruct (HC t1 I1 P2) as (t' & E2 & HR). exists t'. split; [exact E2|]. rewrite <- app_assoc in HR. exact HR.
  Qed.
  Lemma string_go done s t is_ cont : is_prefix (done ++ Lit s :: is_) all -> Inv done t ->
    (forall t1, Inv (done ++ [Lit s]) t1 -> is_prefix ((done ++ [Lit s]) ++ is_) all -> exists t', cont t1 = Some t' /\ reaches ((done ++ [Lit s]) ++ is_) t') ->
    exists t', continue_if T (account_string s t) cont = Some t' /\ reaches (done ++ Lit s :: is_) t'.
  Proof using All.
    intros HPf HI HC. destruct (prefix_step _ _ _ HPf) as [P1 P2]. destruct (string_step done s t P1 HI) as (t1 & b & E & I1 & HS).
    unfold continue_if. rewrite E. cbn [obind fst snd]. destruct b.
    - exists t1. split; [reflexivity|]. right. eexists. split; [exact P1|]. split; [exact I1|apply HS; reflexivity].
    - destruct (HC t1 I1 P2) as (t' & E2 & HR). exists t'. split; [exact E2|]. rewrite <- app_assoc in HR. exact HR.
  Qed.
  Lemma tr_premeasure_ok : (forall pos s ps, parses pos s ps -> measures false s ps) /\ (forall pos s ps, field pos s ps -> measures true s ps).
  Proof using All.
    assert (forall x pos ds, (x < n -> x = value ds) -> (n <= x -> n <= value ds) -> refer n x (pos - 1) = refer n (value ds) (pos - 1)) as ER.
    { intros x pos ds D3 D4. unfold refer. destruct (Z.ltb_spec x n); [rewrite <- D3 by lia; replace (x <? n) with true by lia; reflexivity|replace (value ds <? n) with false by lia; reflexivity]. }
    apply tr_ind.
    - intros pos fuel next done t Hf Hx HPf HI. destruct fuel; [lia|]. exists t. cbn. rewrite app_nil_r. split; [reflexivity|left; exact HI].
    - intros pos s HNE HNI fuel next done t Hf Hx HPf HI. destruct fuel as [|fuel]; [lia|]. cbn [tr_premeasure negb resolve] in *. destruct s as [|x s]; [contradiction|].
      rewrite str_find_none by exact HNI. apply string_last; assumption.
    - intros pos s r ps HNI _ IH fuel next done t Hf Hx HPf HI. destruct fuel as [|fuel]; [lia|]. rewrite app_length in Hf. cbn [length] in Hf.
      cbn [tr_premeasure negb]. destruct (s ++ open_brace :: r) eqn:ES; [destruct s; discriminate|]. rewrite <- ES. rewrite str_find_some by exact HNI.
      cbn [resolve] in *. apply string_go; [assumption..|]. intros t1 I1 P1. apply IH; [lia|lia|exact P1|exact I1].
    - intros pos fuel next done t Hf Hx HPf HI. destruct fuel as [|fuel]; [lia|]. cbn [tr_premeasure negb resolve] in *. apply arg_last; assumption.
    - intros pos r ps _ IH fuel next done t Hf Hx HPf HI. destruct fuel as [|fuel]; [lia|]. cbn [length] in Hf. cbn [tr_premeasure negb]. change (close_brace =? 125) with true. cbv iota.
      cbn [resolve] in *. apply arg_go; [assumption..|]. intros t1 I1 P1. apply IH; [lia|lia|exact P1|exact I1].
    - intros pos c r ps HNI _ IH fuel next done t Hf Hx HPf HI. destruct fuel as [|fuel]; [lia|]. cbn [length] in Hf. rewrite app_length in Hf. cbn [length] in Hf. cbn [tr_premeasure negb].
      change (dash =? 125) with false. change ((48 <=? dash) && (dash <=? 57)) with false. change (dash =? 123) with false. change (dash =? 45) with true.
      unfold continue_if at 1. cbn [negb obind fst snd]. cbv iota. rewrite str_find_some by exact HNI. apply IH; [lia|lia|assumption..].
    - intros pos c HNI fuel next done t Hf Hx HPf HI. destruct fuel as [|fuel]; [lia|]. cbn [tr_premeasure negb].
      change (dash =? 125) with false. change ((48 <=? dash) && (dash <=? 57)) with false. change (dash =? 123) with false. change (dash =? 45) with true.
      unfold continue_if at 1. cbn [negb obind fst snd]. cbv iota. rewrite str_find_none by exact HNI. exists t. split; [reflexivity|]. left. cbn. rewrite app_nil_r. exact HI.
    - intros pos ds c r ps HNE HD HNI HT _ IH fuel next done t Hf Hx HPf HI. destruct fuel as [|fuel]; [lia|]. rewrite !app_length in Hf. cbn [length] in Hf. cbn [tr_premeasure negb].
      destruct (read_uint_ok n ds (c ++ close_brace :: r) ltac:(lia) HNE HD) as (x & ds' & E & D1 & D2 & D3 & D4).
      { destruct c; cbn; [unfold is_digit, close_brace; lia|exact HT]. }
      set (it := ds ++ c ++ close_brace :: r) in *. destruct it as [|ch rest] eqn:EI; [destruct ds; [contradiction|discriminate]|].
      assert (is_digit ch) as Hch by (unfold it in EI; destruct ds; [contradiction|injection EI as <- _; inversion HD; assumption]). unfold is_digit in Hch.
      replace (ch =? 125) with false by lia. replace ((48 <=? ch) && (ch <=? 57)) with true by lia. cbv iota. rewrite E. cbn [obind fst snd].
      replace (ds' ++ c ++ close_brace :: r) with ((ds' ++ c) ++ close_brace :: r) by (rewrite app_assoc; reflexivity).
      rewrite str_find_some by (rewrite in_app_iff; intros [Hi|Hi]; [exact (digits_no_brace ds' D1 Hi)|exact (HNI Hi)]).
      cbn [resolve] in *. rewrite <- (ER x pos ds D3 D4) in *. apply arg_go; [assumption..|]. intros t1 I1 P1. apply IH; [lia|lia|exact P1|exact I1].
    - intros pos ds c HNE HD HNI HT fuel next done t Hf Hx HPf HI. destruct fuel as [|fuel]; [lia|]. cbn [tr_premeasure negb].
      destruct (read_uint_ok n ds c ltac:(lia) HNE HD HT) as (x & ds' & E & D1 & D2 & D3 & D4).
      set (it := ds ++ c) in *. destruct it as [|ch rest] eqn:EI; [destruct ds; [contradiction|discriminate]|].
      assert (is_digit ch) as Hch by (unfold it in EI; destruct ds; [contradiction|injection EI as <- _; inversion HD; assumption]). unfold is_digit in Hch.
      replace (ch =? 125) with false by lia. replace ((48 <=? ch) && (ch <=? 57)) with true by lia. cbv iota. rewrite E. cbn [obind fst snd].
      rewrite str_find_none by (rewrite in_app_iff; intros [Hi|Hi]; [exact (digits_no_brace ds' D1 Hi)|exact (HNI Hi)]).
      cbn [resolve] in *. rewrite <- (ER x pos ds D3 D4) in *. apply arg_go; [assumption..|]. intros t1 I1 P1. exists t1. split; [reflexivity|]. left. rewrite app_nil_r. exact I1.
    - intros pos s HNI fuel next done t Hf Hx HPf HI. destruct fuel as [|fuel]; [lia|]. cbn [tr_premeasure negb].
      change (open_brace =? 125) with false. change ((48 <=? open_brace) && (open_brace <=? 57)) with false. change (open_brace =? 123) with true. cbv iota.
      rewrite str_find_none by exact HNI. cbn [resolve] in *. apply string_last; assumption.
    - intros pos s r ps HNI _ IH fuel next done t Hf Hx HPf HI. destruct fuel as [|fuel]; [lia|]. cbn [length] in Hf. rewrite app_length in Hf. cbn [length] in Hf. cbn [tr_premeasure negb].
      change (open_brace =? 125) with false. change ((48 <=? open_brace) && (open_brace <=? 57)) with false. change (open_brace =? 123) with true. cbv iota.
      rewrite str_find_some by exact HNI. cbn [resolve] in *. apply string_go; [assumption..|]. intros t1 I1 P1. apply IH; [lia|lia|exact P1|exact I1].
    - intros pos x c r ps N1 N2 N3 N4 HNI _ IH fuel next done t Hf Hx HPf HI. destruct fuel as [|fuel]; [lia|]. cbn [length] in Hf. rewrite app_length in Hf. cbn [length] in Hf. cbn [tr_premeasure negb].
      unfold dash, open_brace, close_brace, is_digit in N1, N2, N3, N4.
      replace (x =? 125) with false by lia. replace ((48 <=? x) && (x <=? 57)) with false by lia. replace (x =? 123) with false by lia. replace (x =? 45) with false by lia. cbn [negb]. cbv iota.
      rewrite str_find_some by exact HNI. cbn [resolve] in *. apply arg_go; [assumption..|]. intros t1 I1 P1. apply IH; [lia|lia|exact P1|exact I1].
    - intros pos x c N1 N2 N3 N4 HNI fuel next done t Hf Hx HPf HI. destruct fuel as [|fuel]; [lia|]. cbn [tr_premeasure negb].
      unfold dash, open_brace, close_brace, is_digit in N1, N2, N3, N4.
      replace (x =? 125) with false by lia. replace ((48 <=? x) && (x <=? 57)) with false by lia. replace (x =? 123) with false by lia. replace (x =? 45) with false by lia. cbn [negb]. cbv iota.
      rewrite str_find_none by exact HNI. cbn [resolve] in *. apply arg_go; [assumption..|]. intros t1 I1 P1. exists t1. split; [reflexivity|]. left. rewrite app_nil_r. exact I1.
  Qed.
End MeasureProofs.

(* ---- the two size parsers agree on every string ---- *)
Lemma tr_size_premeasure sizes rsize : forall fuel after it next count, 0 <= next ->
  tr_size sizes rsize fuel after it (Z.min next (zlen sizes)) count =
  tr_premeasure Z (ps_arg sizes rsize) ps_string (zlen sizes) fuel after it next count.
Proof.
  set (n := zlen sizes). assert (0 <= n) as Hn by apply zlen_nonneg.
  assert (forall k c, size_arg sizes rsize k c = option_map fst (ps_arg sizes rsize k c)) as EA.
  { intros k c. unfold size_arg, ps_arg. destruct (k <? zlen sizes); [destruct (nth_error _ _); [|reflexivity]; cbn [obind]|]; destruct (chk_i 64 _); reflexivity. }
  assert (forall k c, ps_arg sizes rsize (Z.min k n) c = ps_arg sizes rsize k c) as EM.
  { intros k c. unfold ps_arg. fold n. destruct (Z.ltb_spec k n); [replace (Z.min k n) with k by lia; replace (k <? n) with true by lia; reflexivity|replace (Z.min k n <? n) with false by lia; reflexivity]. }
  assert (forall k c x, ps_arg sizes rsize k c = Some x -> snd x = false) as EF.
  { intros k c x. unfold ps_arg. destruct (k <? zlen sizes); [destruct (nth_error _ _); [|discriminate]; cbn [obind]|]; (destruct (chk_i 64 _); [|discriminate]); cbn [obind]; intros [= <-]; reflexivity. }
  assert (forall k, 0 <= k -> size_next sizes (Z.min k n) = Z.min (k + 1) n) as EN.
  { intros k Hk. unfold size_next. fold n. destruct (Z.ltb_spec (Z.min k n) n); lia. }
  assert (forall k c f, (do x <- size_arg sizes rsize k c ; f x) = continue_if Z (ps_arg sizes rsize k c) f) as EC.
  { intros k c f. rewrite EA. unfold continue_if. destruct (ps_arg sizes rsize k c) as [[x bb]|] eqn:E; [|reflexivity]. apply EF in E. cbn [snd] in E. subst bb. reflexivity. }
  assert (forall s c f, (do x <- chk_i 64 (c + zlen s) ; f x) = continue_if Z (ps_string s c) f) as ES.
  { intros s c f. unfold continue_if, ps_string. destruct (chk_i 64 _); reflexivity. }
  assert (forall s c, chk_i 64 (c + zlen s) = (do r <- ps_string s c ; Some (fst r))) as ES2.
  { intros s c. unfold ps_string. destruct (chk_i 64 _); reflexivity. }
  assert (forall k c, size_arg sizes rsize k c = (do r <- ps_arg sizes rsize k c ; Some (fst r))) as EA2 by (intros k c; rewrite EA; reflexivity).
  induction fuel as [|fuel IH]; intros after it next count Hx; [reflexivity|]. cbn [tr_size tr_premeasure]. fold n. destruct after; cbn [negb].
  - destruct it as [|ch rest]; [rewrite EA2, EM; reflexivity|]. destruct (ch =? 125).
    + rewrite EC, EM. unfold continue_if. destruct (ps_arg sizes rsize next count) as [[x []]|]; cbn [obind fst snd]; try reflexivity. rewrite EN by lia. apply IH. lia.
    + destruct ((48 <=? ch) && (ch <=? 57)).
      * destruct (read_uint (ch :: rest) n) as [[v r]|]; [|reflexivity]. cbn [obind fst snd]. rewrite EC. unfold continue_if.
        destruct (ps_arg sizes rsize v count) as [[x []]|]; cbn [obind fst snd]; try reflexivity. destruct (str_find 125 r) as [[p q]|]; [|reflexivity]. apply IH. lia.
      * destruct (ch =? 123).
        -- destruct (str_find 123 rest) as [[p q]|]; [|apply ES2]. rewrite ES. unfold continue_if. destruct (ps_string (ch :: p) count) as [[x []]|]; cbn [obind fst snd]; try reflexivity. apply IH. lia.
        -- destruct (ch =? 45); cbn [negb].
           ++ unfold continue_if. cbn [obind fst snd]. destruct (str_find 125 rest) as [[p q]|]; [|reflexivity]. apply IH. lia.
           ++ rewrite EC, EM. unfold continue_if. destruct (ps_arg sizes rsize next count) as [[x []]|]; cbn [obind fst snd]; try reflexivity.
              destruct (str_find 125 rest) as [[p q]|]; [|reflexivity]. rewrite EN by lia. apply IH. lia.
  - destruct it as [|ch rest]; [reflexivity|]. destruct (str_find 123 (ch :: rest)) as [[p q]|]; [|apply ES2].
    rewrite ES. unfold continue_if. destruct (ps_string p count) as [[x []]|]; cbn [obind fst snd]; try reflexivity. apply IH. lia.
Qed.

(* ---- the pieces of the string ---- *)
Definition piece_ok (P : Z -> Prop) (p : piece) : Prop := match p with Text s => Forall P s | _ => True end.
Lemma parses_forall (P : Z -> Prop) : P open_brace ->
  (forall pos s ps, parses pos s ps -> Forall P s -> Forall (piece_ok P) ps) /\
  (forall pos s ps, field pos s ps -> Forall P s -> Forall (piece_ok P) ps).
Proof.
  intros HO. apply tr_ind; try solve [intros; constructor]; try solve [intros; constructor; [exact I|constructor]].
  - intros pos s _ _ H. constructor; [exact H|constructor].
  - intros pos s r ps _ _ IH H. apply Forall_app in H. destruct H as [H1 H2]. inversion H2; subst. constructor; auto.
  - intros pos r ps _ IH H. inversion H; subst. constructor; [exact I|auto].
  - intros pos c r ps _ _ IH H. inversion H as [|? ? ? H2]; subst. apply Forall_app in H2. destruct H2 as [_ H2]. inversion H2; subst. auto.
  - intros pos ds c r ps _ _ _ _ _ IH H. apply Forall_app in H. destruct H as [_ H]. apply Forall_app in H. destruct H as [_ H]. inversion H; subst. constructor; [exact I|auto].
  - intros pos s _ H. constructor; [exact H|constructor].
  - intros pos s r ps _ _ IH H. inversion H as [|? ? ? H2]; subst. apply Forall_app in H2. destruct H2 as [H1 H2]. inversion H2; subst. constructor; [constructor; auto|auto].
  - intros pos x c r ps _ _ _ _ _ _ IH H. inversion H as [|? ? ? H2]; subst. apply Forall_app in H2. destruct H2 as [_ H2]. inversion H2; subst. constructor; [exact I|auto].
Qed.
Definition lits (P : list Z -> Prop) (is_ : list item) : Prop := Forall (fun i => match i with Lit s => P s | _ => True end) is_.
Lemma resolve_lits P n ps : Forall (piece_ok P) ps -> forall next, lits (Forall P) (resolve n next ps).
Proof.
  unfold lits. induction 1 as [|p ps Hp HF IH]; intros next; cbn [resolve]; [constructor|]. destruct p as [s|a|a k]; constructor; auto.
  - unfold refer. destruct (_ <? _); exact I.
  - unfold refer. destruct (_ <? _); exact I.
Qed.
Lemma items_text_app b ts i j : items_text b ts (i ++ j) = items_text b ts i ++ items_text b ts j.
Proof. unfold items_text. rewrite map_app, concat_app. reflexivity. Qed.
Lemma items_text_one b ts i : items_text b ts [i] = item_text b ts i.
Proof. unfold items_text. cbn [map concat]. apply app_nil_r. Qed.
Lemma items_text_prefix b ts i j : is_prefix i j -> zlen (items_text b ts i) <= zlen (items_text b ts j).
Proof. intros [r ->]. rewrite items_text_app, zlen_app. pose proof (zlen_nonneg (items_text b ts r)). lia. Qed.

(* ---- size ---- *)
Section SizeProofs.
  Variables (b : cset) (sizes : list Z) (ts : list (list Z)) (all : list item).
  Hypothesis HS : Forall2 (fun s t => s = zlen t) sizes ts.
  Hypothesis HT : zlen (items_text b ts all) < 2 ^ 63.
  Definition size_inv (done : list item) (t : Z) : Prop := t = zlen (items_text b ts done).
  Lemma size_arg_step done k a t : 0 <= k -> is_prefix (done ++ [refer (zlen sizes) k a]) all -> size_inv done t ->
    exists t', ps_arg sizes (replacement_size b) k t = Some (t', false) /\ size_inv (done ++ [refer (zlen sizes) k a]) t'.
  Proof using HS HT.
    intros Hk HP ->. pose proof (items_text_prefix b ts _ _ HP) as HL. unfold size_inv. rewrite items_text_app, zlen_app, items_text_one in *. unfold ps_arg, refer in *.
    pose proof (zlen_nonneg (items_text b ts done)). destruct (Z.ltb_spec k (zlen sizes)) as [HK|HK]; cbn [item_text] in *.
    - destruct (nth_ok _ sizes ts [] (Z.to_nat k) HS) as (x & -> & ->); [unfold zlen in HK; lia|]. cbn [obind]. pose proof (zlen_nonneg (nth (Z.to_nat k) ts [])).
      rewrite chk64 by lia. cbn [obind]. eexists. split; reflexivity.
    - destruct (replacement_ok b) as (_ & _ & E). rewrite E in *. assert (0 <= replacement_size b) by (destruct b as [[| |]|]; cbn; lia).
      rewrite chk64 by lia. cbn [obind]. eexists. split; reflexivity.
  Qed.
  Lemma size_string_step done s t : is_prefix (done ++ [Lit s]) all -> size_inv done t ->
    exists t', ps_string s t = Some (t', false) /\ size_inv (done ++ [Lit s]) t'.
  Proof using HT.
    intros HP ->. pose proof (items_text_prefix b ts _ _ HP) as HL. unfold size_inv. rewrite items_text_app, zlen_app, items_text_one in *. cbn [item_text] in *.
    pose proof (zlen_nonneg (items_text b ts done)). pose proof (zlen_nonneg s). unfold ps_string. rewrite chk64 by lia. cbn [obind]. eexists. split; reflexivity.
  Qed.
End SizeProofs.

(* ---- width ---- *)
Lemma sumZ_app l m : sumZ (l ++ m) = sumZ l + sumZ m.
Proof. unfold sumZ. induction l as [|x l IH]; cbn; [reflexivity|]. rewrite IH. lia. Qed.
Lemma sumZ_nonneg l : Forall (fun x => 0 <= x) l -> 0 <= sumZ l.
Proof. induction 1; cbn; [lia|]. fold (sumZ l). lia. Qed.
Lemma Forall2_len {A B} (P : A -> B -> Prop) l m : Forall2 P l m -> length l = length m.
Proof. induction 1; cbn; congruence. Qed.
Lemma forall2_prefix {A B} (P : A -> B -> Prop) done i all xs : Forall2 P all xs -> is_prefix (done ++ [i]) all ->
  exists x r, P i x /\ firstn (length (done ++ [i])) xs = firstn (length done) xs ++ [x] /\ xs = firstn (length done) xs ++ x :: r.
Proof.
  intros HF [v ->]. rewrite <- app_assoc in HF. cbn [app] in HF. apply Forall2_app_inv_l in HF. destruct HF as (x1 & x2 & F1 & F2 & ->).
  inversion F2 as [|? x ? x3 Hx F3]; subst. exists x, x3. apply Forall2_len in F1. split; [exact Hx|].
  rewrite app_length. cbn [length]. rewrite F1. rewrite firstn_app, firstn_all2 by lia. replace (length x1 + 1 - length x1)%nat with 1%nat by lia. cbn [firstn].
  rewrite firstn_app, firstn_all, Nat.sub_diag. cbn [firstn]. rewrite app_nil_r. split; reflexivity.
Qed.
Section TrWidth.
  Variables (w : wcalc) (b : cset) (ws : list Z) (all : list item) (xs : list Z) (limit : Z).
  Hypothesis HB : is_cset b.
  Hypothesis HL : 0 <= limit <= u_max.
  Hypothesis HWs : Forall (fun x => 0 <= x) ws.
  Hypothesis HX : Forall2 (item_width w b ws) all xs.
  Hypothesis HM : sumZ xs <= u_max.
  Hypothesis HU : lits (unit_text b) all.
  Hypothesis HC : lits (countable w b) all.
  Lemma nth_nonneg l k : Forall (fun x => 0 <= x) l -> 0 <= nth k l 0.
  Proof. intros H. revert k. induction H as [|x l Hx HF IH]; intros [|k]; cbn [nth]; try lia; try exact Hx; apply IH. Qed.
  Lemma item_width_nonneg i x : item_width w b ws i x -> 0 <= x.
  Proof using HWs.
    destruct i; cbn; [intros (l & _ & ->); apply seg_width_nonneg|intros ->; apply nth_nonneg, HWs|lia].
  Qed.
  Lemma xs_nonneg : Forall (fun x => 0 <= x) xs.
  Proof using HWs HX. clear HM HU HC. induction HX; constructor; auto. eapply item_width_nonneg; eauto. Qed.
  Definition sofar (done : list item) : Z := sumZ (firstn (length done) xs).
  Lemma sofar_step done i : is_prefix (done ++ [i]) all -> exists x, item_width w b ws i x /\ 0 <= x /\ 0 <= sofar done /\
    sofar (done ++ [i]) = sofar done + x /\ sofar done + x <= u_max.
  Proof using HWs HX HM.
    intros HP. destruct (forall2_prefix _ _ _ _ _ HX HP) as (x & r & Hx & E1 & E2). exists x. split; [exact Hx|]. pose proof (item_width_nonneg _ _ Hx) as H0. split; [exact H0|].
    pose proof xs_nonneg as HN. rewrite E2 in HN. apply Forall_app in HN. destruct HN as [N1 N2]. inversion N2; subst. unfold sofar. rewrite E1, sumZ_app.
    pose proof (sumZ_nonneg _ N1) as S1. pose proof (sumZ_nonneg r) as S2. split; [exact S1|]. change (sumZ [x]) with (x + 0). split; [lia|].
    pose proof HM as HM'. rewrite E2, sumZ_app in HM'. change (sumZ (x :: r)) with (x + sumZ r) in HM'. specialize (S2 ltac:(assumption)). lia.
  Qed.
  Lemma sofar_le done : sofar done <= sumZ xs.
  Proof using HWs HX.
    unfold sofar. pose proof xs_nonneg as HN. rewrite <- (firstn_skipn (length done) xs) in HN at 1. apply Forall_app in HN. destruct HN as [_ HN].
    rewrite <- (firstn_skipn (length done) xs) at 2. rewrite sumZ_app. pose proof (sumZ_nonneg _ HN). lia.
  Qed.
  Lemma sofar_all : sofar all = sumZ xs.
  Proof using HX. unfold sofar. rewrite (Forall2_len _ _ _ HX), firstn_all. reflexivity. Qed.
  Definition width_inv (done : list item) (t : Z) : Prop := 0 <= t <= sofar done /\ (t = sofar done \/ limit <= t).
  Lemma width_string done s t : is_prefix (done ++ [Lit s]) all -> width_inv done t ->
    exists rem x, w_sub limit t = Some rem /\ wc_str_width w b rem s = Some x /\ w_add t x = Some (t + x) /\ width_inv (done ++ [Lit s]) (t + x).
  Proof using HB HL HWs HX HM HU HC.
    intros HP [H1 H2]. destruct (sofar_step _ _ HP) as (x & (l & HS & ->) & X0 & S0 & E & HQ). exists (limit - t).
    assert (unit_text b s) as HUs. { destruct HP as [v EV]. unfold lits in HU. rewrite EV in HU. apply Forall_app in HU. destruct HU as [HU1 _]. apply Forall_app in HU1. destruct HU1 as [_ HU1]. inversion HU1; assumption. }
    assert (countable w b s) as HCs. { destruct HP as [v EV]. unfold lits in HC. rewrite EV in HC. apply Forall_app in HC. destruct HC as [HC1 _]. apply Forall_app in HC1. destruct HC1 as [_ HC1]. inversion HC1; assumption. }
    unfold u_max in *. destruct (wc_str_width_ok w b (limit - t) s l HB HUs HS HCs) as (sw & E1 & Q1 & Q2 & _); [unfold is_width, u_min, u_max; lia|].
    exists sw. split; [apply w_sub_ok; unfold u_min, u_max; lia|]. split; [exact E1|]. split; [apply w_add_ok; unfold u_min, u_max; lia|].
    unfold width_inv. rewrite E. lia.
  Qed.
  Lemma width_ref done n k a t : is_prefix (done ++ [refer n k a]) all -> 0 <= k -> n = zlen ws -> width_inv done t ->
    exists x, (if k <? n then nth_error ws (Z.to_nat k) else Some 65536) = Some x /\ w_add t x = Some (t + x) /\ width_inv (done ++ [refer n k a]) (t + x).
  Proof using HL HWs HX HM.
    intros HP Hk -> [H1 H2]. destruct (sofar_step _ _ HP) as (x & HX0 & X0 & S0 & E & HQ). exists x. unfold refer in *. destruct (Z.ltb_spec k (zlen ws)) as [HK|HK]; cbn [item_width] in HX0.
    - split; [rewrite (nth_error_nth' ws 0) by (unfold zlen in HK; lia); congruence|]. split; [apply w_add_ok; unfold u_min, u_max in *; lia|]. unfold width_inv. rewrite E. lia.
    - split; [congruence|]. split; [apply w_add_ok; unfold u_min, u_max in *; lia|]. unfold width_inv. rewrite E. lia.
  Qed.
  (* width alone: may stop at the limit *)
  Lemma pw_arg_step done k a t : 0 <= k -> is_prefix (done ++ [refer (zlen ws) k a]) all -> width_inv done t ->
    exists t' e, pw_arg ws limit k t = Some (t', e) /\ width_inv (done ++ [refer (zlen ws) k a]) t' /\ (e = true -> limit <= t').
  Proof using HL HWs HX HM.
    intros Hk HP HI. unfold pw_arg. destruct (Z.ltb_spec t limit) as [HT|HT].
    - destruct (width_ref done (zlen ws) k a t HP Hk eq_refl HI) as (x & E1 & E2 & HI2). rewrite E1. cbn [obind]. rewrite E2. cbn [obind]. eexists _, _. split; [reflexivity|]. split; [exact HI2|]. apply Z.leb_le.
    - exists t, false. split; [reflexivity|]. split; [|discriminate]. destruct (sofar_step _ _ HP) as (x & _ & X0 & S0 & E & HQ). destruct HI. unfold width_inv. rewrite E. lia.
  Qed.
  Lemma pw_string_step done s t : is_prefix (done ++ [Lit s]) all -> width_inv done t ->
    exists t' e, pw_string w b limit s t = Some (t', e) /\ width_inv (done ++ [Lit s]) t' /\ (e = true -> limit <= t').
  Proof using HB HL HWs HX HM HU HC.
    intros HP HI. unfold pw_string. destruct (Z.ltb_spec t limit) as [HT|HT].
    - destruct (width_string done s t HP HI) as (rem & x & E1 & E2 & E3 & HI2). rewrite E1. cbn [obind]. rewrite E2. cbn [obind]. rewrite E3. cbn [obind].
      eexists _, _. split; [reflexivity|]. split; [exact HI2|]. apply Z.leb_le.
    - exists t, false. split; [reflexivity|]. split; [|discriminate]. destruct (sofar_step _ _ HP) as (x & _ & X0 & S0 & E & HQ). destruct HI. unfold width_inv. rewrite E. lia.
  Qed.
  (* size and width *)
  Variables (sizes : list Z) (ts : list (list Z)).
  Hypothesis HS : Forall2 (fun s t => s = zlen t) sizes ts.
  Hypothesis HT : zlen (items_text b ts all) < 2 ^ 63.
  Hypothesis HZ : zlen sizes = zlen ws.
  Definition both_inv (done : list item) (t : Z * Z) : Prop := size_inv b ts done (fst t) /\ width_inv done (snd t).
  Lemma psw_arg_step done k a t : 0 <= k -> is_prefix (done ++ [refer (zlen ws) k a]) all -> both_inv done t ->
    exists t', psw_arg sizes ws (replacement_size b) k t = Some (t', false) /\ both_inv (done ++ [refer (zlen ws) k a]) t'.
  Proof using HL HWs HX HM HS HT HZ.
    intros Hk HP [I1 I2]. destruct (width_ref done (zlen ws) k a (snd t) HP Hk eq_refl I2) as (x & E1 & E2 & HI2).
    rewrite <- HZ in *. destruct (size_arg_step b sizes ts all HS HT done k a (fst t) Hk HP I1) as (s' & E3 & HI1).
    unfold psw_arg. unfold ps_arg in E3. destruct (k <? zlen sizes).
    - destruct (nth_error sizes (Z.to_nat k)) as [y|]; [|discriminate]. cbn [obind] in *. destruct (chk_i 64 (fst t + y)) as [s2|]; [|discriminate]. cbn [obind] in *. injection E3 as ->.
      rewrite E1. cbn [obind]. rewrite E2. cbn [obind]. eexists. split; [reflexivity|]. split; [exact HI1|exact HI2].
    - destruct (chk_i 64 (fst t + replacement_size b)) as [s2|]; [|discriminate]. cbn [obind] in *. injection E3 as ->. injection E1 as <-. rewrite E2. cbn [obind].
      eexists. split; [reflexivity|]. split; [exact HI1|exact HI2].
  Qed.
  Lemma psw_string_step done s t : is_prefix (done ++ [Lit s]) all -> both_inv done t ->
    exists t', psw_string w b limit s t = Some (t', false) /\ both_inv (done ++ [Lit s]) t'.
  Proof using HB HL HWs HX HM HU HC HS HT.
    intros HP [I1 I2]. destruct (width_string done s (snd t) HP I2) as (rem & x & E1 & E2 & E3 & HI2).
    destruct (size_string_step b ts all HT done s (fst t) HP I1) as (s' & E4 & HI1). unfold psw_string. unfold ps_string in E4.
    destruct (chk_i 64 (fst t + zlen s)) as [s2|]; [|discriminate]. cbn [obind] in *. injection E4 as ->. rewrite E1. cbn [obind]. rewrite E2. cbn [obind]. rewrite E3. cbn [obind].
    eexists. split; [reflexivity|]. split; [exact HI1|exact HI2].
  Qed.
End TrWidth.

(* ---- the arguments ---- *)
Definition full (M : option Z) : option Z := match M with Some _ => Some u_max | None => None end.
Lemma make_each_ok M p args ds : Forall2 (arg_ok M) args ds -> Forall (pre_ok M p) ds ->
  exists pres prs, make_each args p = Some (pres, prs) /\ Forall2 (fun d q => added p d q) ds pres /\ Forall2 prints_text prs (map d_text ds).
Proof.
  induction 1 as [|a d args ds HA HF IH]; intros HP; cbn [make_each map].
  - exists [], []. split; [reflexivity|]. split; constructor.
  - inversion HP; subst. destruct HA as (_ & _ & HA). destruct (HA p ltac:(assumption)) as (q & pr & E & T1 & A1). rewrite E. cbn [obind fst snd].
    destruct (IH ltac:(assumption)) as (pres & prs & E2 & F1 & F2). rewrite E2. cbn [obind fst snd]. exists (q :: pres), (pr :: prs). split; [reflexivity|]. split; constructor; assumption.
Qed.
Lemma to_i_small z : 0 <= z < 2 ^ 63 -> to_i 64 z = z.
Proof. intros H. apply to_i_id; [lia|]. unfold in_i. change (64 - 1) with 63. lia. Qed.
Lemma each_sizes p ds pres : Forall2 (fun d q => added (fresh p) d q) ds pres -> Forall (fun d => zlen (d_text d) < 2 ^ 63) ds -> p_size p <> None ->
  Forall2 (fun s t => s = zlen t) (map accumulated_ssize pres) (map d_text ds).
Proof.
  intros HF. induction HF as [|d q ds pres HA HF IH]; intros HZ HP; cbn [map]; constructor; inversion HZ; subst; auto.
  destruct HA as [HA _]. unfold accumulated_ssize. rewrite HA. unfold fresh. cbn [p_size]. destruct (p_size p); [|contradiction]. cbn [option_map].
  pose proof (zlen_nonneg (d_text d)). rewrite Z.add_0_l, Z.mod_small by lia. apply to_i_small. lia.
Qed.
Lemma each_widths p ds pres : Forall2 (fun d q => added (fresh p) d q) ds pres -> Forall (fun d => 0 <= d_width d <= u_max) ds -> p_width p <> None ->
  map accumulated_width pres = map d_width ds.
Proof.
  intros HF. induction HF as [|d q ds pres HA HF IH]; intros HZ HP; cbn [map]; [reflexivity|]. inversion HZ; subst. f_equal; [|apply IH; assumption].
  destruct (p_width p) as [w|] eqn:EW; [|contradiction].
  assert (p_width (fresh p) = Some (u_max, 0)) as EF by (unfold fresh; cbn [p_width]; rewrite EW; reflexivity).
  destruct (added_accumulated (fresh p) d q u_max 0 EF) as (E & _); try assumption; try (unfold is_width, u_min, u_max in *; lia).
Qed.

Definition tr_desc (b : cset) (ds : list desc) (is_ : list item) (W : Z) : desc := mk_desc (items_text b (map d_text ds) is_) W W W.
Lemma p_tr_ok b prs ts str ps : Forall2 prints_text prs ts -> zlen prs < 2 ^ 59 -> parses 0 str ps ->
  prints_text (p_tr b prs str) (items_text b ts (resolve (zlen prs) 0 ps)).
Proof.
  intros HP HN HS. apply prints_by. intros St ops R ok L s u HR K. pose proof (zlen_nonneg prs). destruct (tr_write_ok b prs ts HP HN St ops R ok L) as [HW _].
  destruct (HW 0 str ps HS (S (length str)) 0 s u ltac:(lia) ltac:(lia) HR K) as (s' & E & H'). rewrite Z.min_l in E by lia.
  unfold p_tr, p_tr_errors. rewrite E. cbn [obind fst]. exists s'. split; [reflexivity|exact H'].
Qed.
Lemma forall2_zlen {A B} (P : A -> B -> Prop) l m : Forall2 P l m -> zlen l = zlen m.
Proof. intros H. unfold zlen. rewrite (Forall2_len _ _ _ H). reflexivity. Qed.
Lemma zlen_map {A B} (f : A -> B) l : zlen (map f l) = zlen l.
Proof. unfold zlen. rewrite map_length. reflexivity. Qed.

Lemma brace_unit b : 0 <= open_brace < 2 ^ unit_bits b.
Proof. unfold open_brace. destruct b as [[| |]|i cs]; cbn [unit_bits bits_of]; lia. Qed.
Lemma tr_arg_ok M w b str ps args ds xs : is_cset b -> unit_text b str -> parses 0 str ps ->
  Forall2 (arg_ok (full M)) args ds -> zlen args < 2 ^ 59 ->
  let items := resolve (zlen args) 0 ps in
  zlen (items_text b (map d_text ds) items) < 2 ^ 63 -> Forall (fun d => zlen (d_text d) < 2 ^ 63) ds ->
  Forall2 (item_width w b (map d_width ds)) items xs ->
  (M <> None -> Forall (fun d => d_peak d <= u_max) ds /\ lits (countable w b) items) ->
  arg_ok M (tr_arg w b str args) (tr_desc b ds items (sumZ xs)).
Proof.
  intros HB HU HS HA HN items HT HZ HX HM. pose proof (args_nonneg _ _ _ HA) as HD.
  assert (Forall (fun x => 0 <= x) (map d_width ds)) as HWs by (apply Forall_map; eapply Forall_impl; [|exact HD]; cbv beta; intros d Hd; lia).
  assert (Forall (fun x => 0 <= x) xs) as HXs.
  { exact (xs_nonneg w b (map d_width ds) items xs HWs HX). }
  pose proof (sumZ_nonneg _ HXs) as HX0. split; [cbn; lia|]. split; [cbn; lia|].
  intros p [HP1 HP2]. pose proof (forall2_zlen _ _ _ HA) as EL. pose proof (zlen_nonneg args) as HN0.
  assert (lits (unit_text b) items) as HUL.
  { apply (resolve_lits (fun c => 0 <= c < 2 ^ unit_bits b)). apply (proj1 (parses_forall _ (brace_unit b)) 0 str ps HS HU). }
  assert (Forall (pre_ok (full M) (fresh p)) ds) as HF.
  { apply Forall_forall. intros d Hd. split; unfold fresh; cbn [p_size p_width]; [destruct (p_size p); cbn; [lia|exact I]|].
    destruct (p_width p) as [[lim x]|]; cbn [option_map]; [|exact I]. destruct HP2 as (_ & HW & _). destruct M as [m|]; [|contradiction]. destruct (HM ltac:(discriminate)) as [HPk _].
    rewrite Forall_forall in HPk. specialize (HPk _ Hd). unfold is_width, u_min, u_max in *. split; [lia|]. split; [cbn; unfold u_max; lia|]. split; [lia|]. left. cbn. unfold u_max. lia. }
  destruct (make_each_ok (full M) (fresh p) args ds HA HF) as (pres & prs & E & F1 & F2).
  unfold tr_arg. rewrite E. cbn [obind fst snd].
  assert (prints_text (p_tr b prs str) (items_text b (map d_text ds) items)) as HPr.
  { assert (zlen prs = zlen args) as EP by (rewrite (forall2_zlen _ _ _ F2), zlen_map; lia). unfold items. rewrite <- EP. apply p_tr_ok; [exact F2|lia|exact HS]. }
  set (sizes := map accumulated_ssize pres). set (widths := map accumulated_width pres).
  assert (zlen sizes = zlen args) as ES by (unfold sizes; rewrite zlen_map, <- (forall2_zlen _ _ _ F1); lia).
  assert (zlen widths = zlen args) as EWs by (unfold widths; rewrite zlen_map, <- (forall2_zlen _ _ _ F1); lia).
  assert (p_size p <> None -> Forall2 (fun s t => s = zlen t) sizes (map d_text ds)) as HSz by (intros HH; apply (each_sizes p); assumption).
  assert (p_width p <> None -> widths = map d_width ds) as HWd.
  { intros HH. apply (each_widths p); try assumption. apply Forall_forall. intros d Hd. destruct (p_width p) as [[lim x]|]; [|contradiction]. destruct HP2 as (_ & HW & _). destruct M as [m|]; [|contradiction].
    destruct (HM ltac:(discriminate)) as [HPk _]. rewrite Forall_forall in HPk, HD. specialize (HPk _ Hd). specialize (HD _ Hd). cbv beta in HD. lia. }
  assert (is_prefix ([] ++ items) items) as HPf by apply is_prefix_refl.
  cut (exists p1, (match p_size p, p_width p with
            | Some _, Some _ =>
                do limit <- remaining_width p ;
                do t <- tr_premeasure _ (psw_arg sizes widths (replacement_size b)) (psw_string w b limit) (zlen args) (S (length str)) false str 0 (0, 0) ;
                do p1 <- add_size (fst t) p ; add_width (snd t) p1
            | Some _, None =>
                do t <- tr_premeasure _ (ps_arg sizes (replacement_size b)) ps_string (zlen args) (S (length str)) false str 0 0 ;
                add_size t p
            | None, Some _ =>
                do limit <- remaining_width p ;
                do t <- tr_premeasure _ (pw_arg widths limit) (pw_string w b limit) (zlen args) (S (length str)) false str 0 0 ;
                add_width t p
            | None, None => Some p
            end) = Some p1 /\ added p (tr_desc b ds items (sumZ xs)) p1).
  { intros (p1 & -> & HAd). cbn [obind]. exists p1, (p_tr b prs str). split; [reflexivity|]. split; [exact HPr|exact HAd]. }
  pose proof (zlen_nonneg (items_text b (map d_text ds) items)) as HT0.
  assert (match p_width p with None => True | Some (limit, x) => 0 <= x /\ x + sumZ xs <= u_max /\ lits (countable w b) items /\
     remaining_width p = Some (Z.max 0 (limit - x)) /\ limit <= u_max end) as HW.
  { destruct (p_width p) as [[lim x]|] eqn:EW; [|exact I]. destruct HP2 as (L1 & L2 & L3 & L4). destruct M as [m|]; [|contradiction]. destruct (HM ltac:(discriminate)) as [_ HC].
    unfold room, tr_desc in L4. cbn [d_peak d_need] in L4. unfold is_width in L1. split; [lia|]. split; [lia|]. split; [exact HC|]. split; [|lia]. unfold remaining_width. rewrite EW.
    destruct (Z.leb_spec x lim); [rewrite w_sub_ok by (unfold u_min, u_max in *; lia); f_equal; lia|f_equal; lia]. }
  assert (forall x limit t, p_width p = Some (limit, x) -> 0 <= t <= sumZ xs -> (t = sumZ xs \/ Z.max 0 (limit - x) <= t) ->
    limit = limit /\ x <= x + t <= x + d_width (tr_desc b ds items (sumZ xs)) /\ (x + t = x + d_width (tr_desc b ds items (sumZ xs)) \/ limit <= x + t) /\
      x + t <= Z.max limit x + d_need (tr_desc b ds items (sumZ xs))) as Hadd.
  { intros x limit t EW Ht1 Ht2. unfold tr_desc. cbn [d_width d_need]. lia. }
  destruct (p_size p) as [z|] eqn:EZ, (p_width p) as [[lim x]|] eqn:EW.
  - destruct HW as (W1 & W2 & HC & ER & W3). rewrite ER. cbn [obind]. set (limit := Z.max 0 (lim - x)) in *. rewrite (HWd ltac:(discriminate)) in *. specialize (HSz ltac:(discriminate)).
    assert (0 <= limit <= u_max) as HL by (unfold limit; lia).
    destruct (tr_premeasure_ok _ (psw_arg sizes (map d_width ds) (replacement_size b)) (psw_string w b limit) (zlen args) ltac:(lia) items (both_inv b xs limit (map d_text ds)) (fun _ => False)) as [HQ _].
    { intros done k a t Hk Hpf HI. rewrite <- EWs in *. destruct (psw_arg_step w b (map d_width ds) items xs limit HL HWs HX ltac:(lia) sizes (map d_text ds) HSz HT ltac:(lia) done k a t Hk Hpf HI) as (t' & E1 & HI').
      exists t', false. split; [exact E1|]. split; [exact HI'|discriminate]. }
    { intros done s t Hpf HI. destruct (psw_string_step w b (map d_width ds) items xs limit HB HL HWs HX ltac:(lia) HUL HC sizes (map d_text ds) HSz HT done s t Hpf HI) as (t' & E1 & HI').
      exists t', false. split; [exact E1|]. split; [exact HI'|discriminate]. }
    destruct (HQ 0 str ps HS (S (length str)) 0 [] (0, 0) ltac:(lia) ltac:(lia) HPf) as (t & E1 & [[I1 I2]|(dn & _ & _ & [])]); [split; [reflexivity|]; unfold width_inv, sofar; cbn; lia|].
    rewrite E1. cbn [obind]. unfold width_inv in I2. cbn [app] in I1, I2. fold items in I2. rewrite (sofar_all w b (map d_width ds) _ xs HX) in I2.
    unfold size_inv in I1. fold items in I1. destruct (add_size_ok (fst t) p ltac:(lia)) as (p1 & -> & P1 & P2 & _); [rewrite EZ; exact HP1|]. cbn [obind].
    destruct (add_width_ok (snd t) p1) as (p2 & -> & P3 & P4); [rewrite P2, EW; unfold u_min; lia|]. exists p2. split; [reflexivity|]. split.
    + rewrite P3, P1, EZ. cbn [option_map]. rewrite I1. reflexivity.
    + rewrite P4, P2, EW. apply Hadd; [reflexivity|lia|]. fold limit. lia.
  - specialize (HSz ltac:(discriminate)).
    destruct (tr_premeasure_ok _ (ps_arg sizes (replacement_size b)) ps_string (zlen args) ltac:(lia) items (size_inv b (map d_text ds)) (fun _ => False)) as [HQ _].
    { intros done k a t Hk Hpf HI. rewrite <- ES in *. destruct (size_arg_step b sizes (map d_text ds) items HSz HT done k a t Hk Hpf HI) as (t' & E1 & HI').
      exists t', false. split; [exact E1|]. split; [exact HI'|discriminate]. }
    { intros done s t Hpf HI. destruct (size_string_step b (map d_text ds) items HT done s t Hpf HI) as (t' & E1 & HI').
      exists t', false. split; [exact E1|]. split; [exact HI'|discriminate]. }
    destruct (HQ 0 str ps HS (S (length str)) 0 [] 0 ltac:(lia) ltac:(lia) HPf) as (t & E1 & [I1|(dn & _ & _ & [])]); [reflexivity|].
    rewrite E1. cbn [obind]. unfold size_inv in I1. fold items in I1. cbn [app] in I1. destruct (add_size_ok t p ltac:(lia)) as (p1 & -> & P1 & P2 & _); [rewrite EZ; exact HP1|].
    exists p1. split; [reflexivity|]. split; [rewrite P1, EZ; cbn [option_map]; rewrite I1; reflexivity|]. rewrite P2, EW. exact I.
  - destruct HW as (W1 & W2 & HC & ER & W3). rewrite ER. cbn [obind]. set (limit := Z.max 0 (lim - x)) in *. rewrite (HWd ltac:(discriminate)) in *.
    assert (0 <= limit <= u_max) as HL by (unfold limit; lia).
    destruct (tr_premeasure_ok _ (pw_arg (map d_width ds) limit) (pw_string w b limit) (zlen args) ltac:(lia) items (width_inv xs limit) (fun t => limit <= t)) as [HQ _].
    { intros done k a t Hk Hpf HI. rewrite <- EWs in *. exact (pw_arg_step w b (map d_width ds) items xs limit HL HWs HX ltac:(lia) done k a t Hk Hpf HI). }
    { intros done s t Hpf HI. exact (pw_string_step w b (map d_width ds) items xs limit HB HL HWs HX ltac:(lia) HUL HC done s t Hpf HI). }
    destruct (HQ 0 str ps HS (S (length str)) 0 [] 0 ltac:(lia) ltac:(lia) HPf) as (t & E1 & HR); [unfold width_inv, sofar; cbn; lia|].
    assert (0 <= t <= sumZ xs /\ (t = sumZ xs \/ limit <= t)) as [T1 T2].
    { destruct HR as [I2|(dn & _ & I2 & HSt)]; unfold width_inv in I2.
      - cbn [app] in I2. fold items in I2. rewrite (sofar_all w b (map d_width ds) _ xs HX) in I2. exact I2.
      - pose proof (sofar_le w b (map d_width ds) items xs HWs HX dn). lia. }
    rewrite E1. cbn [obind]. destruct (add_width_ok t p) as (p2 & -> & P3 & P4); [rewrite EW; unfold u_min; lia|]. exists p2. split; [reflexivity|]. split; [rewrite P3, EZ; reflexivity|].
    rewrite P4, EW. apply Hadd; [reflexivity|lia|]. fold limit. lia.
  - exists p. split; [reflexivity|]. split; [rewrite EZ; reflexivity|rewrite EW; exact I].
Qed.

(* ---- the reading is unique ---- *)
Lemma split_unique (c : Z) p q r r' : ~ In c p -> ~ In c q -> p ++ c :: r = q ++ c :: r' -> p = q /\ r = r'.
Proof.
  intros HP HQ E. pose proof (str_find_some c p r HP) as E1. rewrite E, (str_find_some c q r' HQ) in E1. injection E1 as -> ->. auto.
Qed.
Lemma not_split (c : Z) p q r : ~ In c p -> p = q ++ c :: r -> False.
Proof. intros H ->. apply H. apply in_or_app. right. left. reflexivity. Qed.
Lemma span_unique ds ds' c c' : Forall is_digit ds -> Forall is_digit ds' -> digit_start c -> digit_start c' -> ds ++ c = ds' ++ c' -> ds = ds' /\ c = c'.
Proof.
  intros H. revert ds'. induction H as [|d ds Hd HF IH]; intros ds' H' HC HC' E.
  - destruct H' as [|d' ds' Hd' HF']; [auto|]. cbn [app] in E. subst c. contradiction.
  - destruct H' as [|d' ds' Hd' HF']; cbn [app] in E; [subst c'; contradiction|]. injection E as -> E. destruct (IH ds' HF' HC HC' E) as [-> ->]. auto.
Qed.
Lemma digit_start_brace c r : digit_start c -> digit_start (c ++ close_brace :: r).
Proof. destruct c; cbn; [intros _; unfold is_digit, close_brace; lia|auto]. Qed.
Lemma digits_head ds c x t : ds <> [] -> Forall is_digit ds -> ds ++ c = x :: t -> is_digit x.
Proof. intros HN H E. destruct H as [|d ds Hd HF]; [contradiction|]. injection E as -> _. exact Hd. Qed.
Ltac heads := match goal with
  | HN : ?ds <> [], HD : Forall is_digit ?ds, E : ?ds ++ _ = ?x :: _ |- _ => pose proof (digits_head _ _ _ _ HN HD E); clear E
  end.
Ltac absurd_heads := exfalso; unfold dash, open_brace, close_brace, is_digit in *; try congruence; lia.
Ltac nosplit := exfalso; subst; match goal with H : ~ In ?c (_ ++ ?c :: _) |- _ => apply H; apply in_or_app; right; left; reflexivity end.
Lemma parses_unique :
  (forall pos s ps, parses pos s ps -> forall ps', parses pos s ps' -> ps' = ps) /\
  (forall pos s ps, field pos s ps -> forall ps', field pos s ps' -> ps' = ps).
Proof.
  apply tr_ind.
  - intros pos ps' H. inversion H; subst; try reflexivity; [contradiction|destruct s; discriminate].
  - intros pos s HN HI ps' H. inversion H as [|? ? HN' HI'|? s' r ps2 HI' HF]; subst; [contradiction|reflexivity|nosplit].
  - intros pos s r ps HI _ IH ps' H. inversion H as [? E|? ? HN' HI'|? s' r' ps2 HI' HF]; subst.
    + destruct s; discriminate.
    + nosplit.
    + destruct (split_unique _ _ _ _ _ HI' HI ltac:(eassumption)) as [-> ->]. f_equal. apply IH. exact HF.
  - intros pos ps' H. inversion H; subst; [reflexivity|..]; match goal with E : ?ds ++ _ = [] |- _ => destruct ds; [cbn [app] in *; congruence|discriminate E] end.
  - intros pos r ps _ IH ps' H. inversion H; subst; try heads; try (absurd_heads). f_equal. auto.
  - intros pos c r ps HI _ IH ps' H. inversion H; subst; try heads; try (absurd_heads).
    + match goal with E : _ ++ _ :: _ = _ ++ _ :: _ |- _ => apply split_unique in E; [|assumption..]; destruct E as [-> ->] end. apply IH. assumption.
    + nosplit.
  - intros pos c HI ps' H. inversion H; subst; try heads; try (absurd_heads); [|reflexivity]. nosplit.
  - intros pos ds c r ps HN HD HI HS _ IH ps' H. remember (ds ++ c ++ close_brace :: r) as s eqn:ES. inversion H as [? E1|? r1 ps1 HP1|? c1 r1 ps1 HI1 HP1|? c1 HI1|? ds' c' r' ps2 HN' HD' HI' HS' HP'|? ds' c' HN' HD' HI' HS'|? s1 HI1|? s1 r1 ps1 HI1 HF1|? x1 c1 r1 ps1 M1 M2 M3 M4 HI1 HP1|? x1 c1 M1 M2 M3 M4 HI1]; try match goal with E : _ = s |- _ => rewrite <- E in ES end; try (symmetry in ES; heads; absurd_heads).
    + subst; destruct ds; [contradiction|discriminate].
    + apply span_unique in ES; [|auto using digit_start_brace..]. destruct ES as [-> ES]. apply split_unique in ES; [|assumption..]. destruct ES as [-> ->]. f_equal. apply IH. exact HP'.
    + apply span_unique in ES; [|auto using digit_start_brace..]. destruct ES as [-> ES]. nosplit.
  - intros pos ds c HN HD HI HS ps' H. remember (ds ++ c) as s eqn:ES. inversion H as [? E1|? r1 ps1 HP1|? c1 r1 ps1 HI1 HP1|? c1 HI1|? ds' c' r' ps2 HN' HD' HI' HS' HP'|? ds' c' HN' HD' HI' HS'|? s1 HI1|? s1 r1 ps1 HI1 HF1|? x1 c1 r1 ps1 M1 M2 M3 M4 HI1 HP1|? x1 c1 M1 M2 M3 M4 HI1]; try match goal with E : _ = s |- _ => rewrite <- E in ES end; try (symmetry in ES; heads; absurd_heads).
    + subst; destruct ds; [contradiction|discriminate].
    + apply span_unique in ES; [|auto using digit_start_brace..]. destruct ES as [-> ES]. nosplit.
    + apply span_unique in ES; [|assumption..]. destruct ES as [-> ES]. reflexivity.
  - intros pos s HI ps' H. inversion H; subst; try heads; try (absurd_heads); [reflexivity|]. nosplit.
  - intros pos s r ps HI _ IH ps' H. inversion H; subst; try heads; try (absurd_heads).
    + nosplit.
    + match goal with E : _ ++ _ :: _ = _ ++ _ :: _ |- _ => apply split_unique in E; [|assumption..]; destruct E as [-> ->] end. f_equal. apply IH. assumption.
  - intros pos x c r ps N1 N2 N3 N4 HI _ IH ps' H. inversion H; subst; try heads; try (absurd_heads).
    + match goal with E : _ ++ _ :: _ = _ ++ _ :: _ |- _ => apply split_unique in E; [|assumption..]; destruct E as [-> ->] end. f_equal. apply IH. assumption.
    + nosplit.
  - intros pos x c N1 N2 N3 N4 HI ps' H. inversion H; subst; try heads; try (absurd_heads); [|reflexivity]. nosplit.
Qed.
