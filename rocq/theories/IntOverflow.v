(* When do the two integer formats that do not reserve their space write outside the buffer?  (C40) *)
From Verif Require Import Base WidthModel WidthProofs DestModel DestProofs GroupSpec GroupModel GroupProofs GroupDist
  DigitsSpec DigitsModel DigitsCount DigitsProofs UtfSpec UtfForms CharsetModel IntSpec IntModel IntProofs.

(* d_emit is a store at the current position: it is refused (a store outside the buffer) when there is no room *)
Definition no_room_fails {S} (ops : dest_ops S) : Prop := forall st u, (d_space ops st < length u)%nat -> d_emit ops st u = None.

Lemma emit_app {S} (ops : dest_ops S) : forall os os' st, run ops st (os ++ os') = (do st1 <- run ops st os ; run ops st1 os').
Proof. induction os as [|o os IH]; intros os' st; cbn [app run obind]; [reflexivity|]. destruct (run_op ops st o); cbn [obind]; [apply IH|reflexivity]. Qed.

(* ---- one operation that reserves a single unit ---- *)
Lemma sign_only_ops clz lc sign sb sgn s v p : in_int sgn (sbits s) v -> nopad_print clz lc B10 sign sb sgn s v = Some p ->
  pr_ops p = [OReserve 1 (ops_text (pr_ops p))].
Proof.
  intros Hv. unfold nopad_print. set (prefix := if sgn then _ else 0). set (u := unsigned_abs sgn (sbits s) v).
  destruct (unsigned_abs_ok sgn s v Hv) as [Eu Hu]. fold u in Eu. rewrite <- Eu in Hu.
  destruct (write_back B10 false u) as [t|]; cbn [obind]; [|discriminate].
  assert (D : 1 <= count_digits clz B10 s u).
  { rewrite (count_digits_ok clz B10 s u) by exact Hu. destruct (digits_bound 10 u ltac:(lia) ltac:(lia)) as (_ & _ & B). cbn [bval]. lia. }
  assert (P : 0 <= prefix) by (unfold prefix; destruct sgn; [destruct (0 <=? v); [destruct sign; cbn; lia|lia]|lia]).
  destruct (_ =? _); [|discriminate]. intros X. assert (Y : forall a b : printed, Some a = Some b -> a = b) by (intros a b0 Q; congruence). apply Y in X. subst p. cbn [pr_ops].
  replace (count_digits clz B10 s u + prefix =? 0) with false by lia. cbn [negb b2i]. unfold ops_text. cbn [map concat op_text]. rewrite app_nil_r. reflexivity.
Qed.
Lemma sign_only_length clz lc sign sb sgn s v p : in_int sgn (sbits s) v -> nopad_print clz lc B10 sign sb sgn s v = Some p ->
  (1 <= length (ops_text (pr_ops p)) <= 64)%nat.
Proof.
  intros Hv. unfold nopad_print. set (prefix := if sgn then _ else 0). set (u := unsigned_abs sgn (sbits s) v).
  destruct (unsigned_abs_ok sgn s v Hv) as [Eu Hu]. fold u in Eu. rewrite <- Eu in Hu.
  destruct (write_back B10 false u) as [t|]; cbn [obind]; [|discriminate].
  assert (D : 1 <= count_digits clz B10 s u <= 60).
  { rewrite (count_digits_ok clz B10 s u) by exact Hu. cbn [bval]. destruct (digits_bound 10 u ltac:(lia) ltac:(lia)) as (_ & B & B0).
    split; [lia|]. destruct (Z_le_gt_dec (zlen (digits 10 u)) 60) as [Q|Q]; [exact Q|exfalso].
    assert (P1 : 10 ^ 60 <= 10 ^ (zlen (digits 10 u) - 1)) by (apply Z.pow_le_mono_r; lia).
    assert (P2 : 2 ^ sbits s <= 2 ^ 64) by (apply Z.pow_le_mono_r; [lia|destruct s; cbn; lia]).
    assert (P3 : 2 ^ 64 < 10 ^ 60) by reflexivity. lia. }
  destruct (Z.eqb_spec (zlen t) (count_digits clz B10 s u)) as [EZ|]; [|discriminate].
  intros X. assert (Y : forall a b : printed, Some a = Some b -> a = b) by (intros a b0 Q; congruence). apply Y in X. subst p. cbn [pr_ops].
  unfold ops_text. cbn [map concat op_text]. rewrite app_nil_r, app_length. unfold zlen in EZ. destruct (prefix =? 0); cbn [length]; lia.
Qed.

(* such an operation, on any destination *)
Lemma reserve_one {S} (ops : dest_ops S) R u st t : full_laws ops R -> no_room_fails ops -> (1 <= length u <= 64)%nat -> R st t ->
  (d_space ops st = 0 \/ length u <= d_space ops st -> exists st', run ops st [OReserve 1 u] = Some st' /\ R st' (t ++ u))%nat /\
  (0 < d_space ops st < length u -> run ops st [OReserve 1 u] = None)%nat.
Proof.
  intros L N Hu HR. cbn [run run_op]. split.
  - intros H. assert (E : exists st0, ensure ops 1 st = Some st0 /\ R st0 t /\ (length u <= d_space ops st0)%nat).
    { unfold ensure. replace (64 <? 1)%nat with false by reflexivity. cbv zeta. destruct (Nat.ltb_spec (d_space ops st) 1).
      - destruct (law_recycle _ _ _ L st t HR) as (A & B). replace (d_space ops (d_recycle ops st) <? 1)%nat with false by lia. eexists; split; [reflexivity|]. split; [exact A|lia].
      - replace (d_space ops st <? 1)%nat with false by lia. eexists; split; [reflexivity|]. split; [exact HR|lia]. }
    destruct E as (st0 & -> & R0 & S0). cbn [obind]. destruct (law_emit _ _ _ L st0 t u R0 S0) as (st' & E & R' & _). rewrite E. cbn [obind]. eauto.
  - intros H. unfold ensure. replace (64 <? 1)%nat with false by reflexivity. cbv zeta. replace (d_space ops st <? 1)%nat with false by lia. replace (d_space ops st <? 1)%nat with false by lia. cbn [obind]. rewrite (N st u) by lia. reflexivity.
Qed.

(* ---- base 2 with one-unit separators: the first group is not reserved ---- *)
Section Binary.
Variables (F : int_facets) (o : int_opts) (al : align_fmt) (sgn : bool) (s : isize) (v : Z) (gs : list Z) (rep : bool).
Variables (sepchar g : Z).
Let enc := cs_encode (if_cs F) sepchar.
Let r := request (if_case F) sgn (sbits s) v o enc (boundary gs rep)
           (cs_encode (if_cs F) (al_fill al)) (w_round (al_width al)) (al_align al).
Lemma binary_shape : charset_ok (if_cs F) -> o_base o = 2 -> in_int sgn (sbits s) v -> align_ok al -> o_prec o <= 2 ^ 31 - 256 -> o_pad0 o <= 2 ^ 31 - 256 ->
  0 <= sepchar < 2 ^ 32 -> represents g gs rep -> o_punct o = true -> (sepchar < 0x80 \/ cs_validate (if_cs F) sepchar <> -1) ->
  zlen enc = 1 -> n_seps r <> 0 ->
  exists p before first rest, punct_print F B2 (o_prec o) (o_pad0 o) (o_sign o) (o_showbase o) al g sepchar sgn s v = Some p /\
    pr_ops p = before ++ OReserve 0 first :: rest /\ Forall op_wf before /\ Forall op_wf rest /\ (1 <= length first <= 64)%nat /\
    ops_text (pr_ops p) = int_text r.
Proof.
  intros K Eb Hv Hal Hprec Hpad Hsep Hr Ep Hvalid Henc Hns.
  pose proof (u_ok F B2 o al sgn s v gs rep enc Eb Hv) as HU. pose proof (dc_ok F B2 o al sgn s v gs rep enc Eb Hv) as HD. cbv zeta in HU, HD. fold r in HU, HD.
  set (u := magnitude r) in *. destruct HU as [U1 U2]. destruct HD as (D1 & D2 & D3 & _). set (dc := zlen (digits (bval B2) u)) in *.
  assert (RB : rq_boundary r = boundary gs rep) by (unfold r, request; cbn [rq_boundary]; rewrite Ep; reflexivity).
  assert (NS : n_seps r = boundaries_below (boundary gs rep) (length (digits (bval B2) u))).
  { unfold n_seps. rewrite RB. unfold mag_digits. change (rq_base r) with (o_base o). rewrite Eb. reflexivity. }
  assert (Esc : separators_count g dc = Some (n_seps r)).
  { rewrite NS. rewrite (separators_count_ok g gs rep dc Hr) by lia. unfold dc, zlen. rewrite Nat2Z.id. reflexivity. }
  assert (Eg : (if (0x80 <=? sepchar) && negb (n_seps r =? 0) then
      let size := cs_validate (if_cs F) sepchar in if size =? -1 then (grouping_empty, 0) else (g, size)
    else (g, 1)) = (g, 1)).
  { replace (n_seps r =? 0) with false by lia. cbn [negb]. rewrite andb_true_r. destruct (Z.leb_spec 128 sepchar); [|reflexivity].
    destruct (ok_validate _ K sepchar Hsep) as [V|V]; [exfalso; lia|]. cbv zeta. rewrite V. fold enc. rewrite Henc. reflexivity. }
  set (low := low_digits (if_case F)).
  set (sep := if 0x80 <=? sepchar then hd 0 (cs_encode (if_cs F) sepchar) else sepchar).
  assert (Esep : enc = [sep]).
  { unfold sep, enc. destruct (Z.leb_spec 128 sepchar); [|apply (ok_ascii _ K); lia]. unfold enc in Henc.
    destruct (cs_encode (if_cs F) sepchar) as [|x [|y l]]; unfold zlen in Henc; cbn [length] in Henc; try lia. reflexivity. }
  assert (U3 : 2 <= u < 2 ^ 64).
  { pose proof (below_le (boundary gs rep) (length (digits (bval B2) u))). cbn [bval] in *.
    split; [apply (two_digits_ge 2 u); unfold zlen; lia|lia]. }
  destruct (write_little_bin_ok low u g gs rep sep U3 Hr) as (u0 & os & EO & L0 & WO & TO). change (digits 2 u) with (digits (bval B2) u) in EO, L0. fold dc in EO, L0.
  destruct (finish_print F B2 o al sgn s v gs rep enc K Eb Hv Hal Hprec Hpad (OReserve 0 u0 :: os) _ eq_refl) as (hp0 & sg & hp & ps & prec & ly & E1 & E2 & EL & _ & _ & _ & HT & _).
  { fold r. rewrite RB. change (rq_sep r) with enc. rewrite Esep. exact TO. }
  fold r in E1, E2, EL, HT. fold u in E1, E2, EL. fold dc in EL.
  destruct Hal as [Hf _].
  exists (mk_printed (print_head (if_cs F) (if_case F) B2 sg (al_fill al) ly ++ (OReserve 0 u0 :: os) ++ print_tail (if_cs F) (al_fill al) ly)
    (ly_sub_width ly + (if ly_fillcount ly =? 0 then 0 else ly_fillcount ly * cs_size (if_cs F) (al_fill al)) + n_seps r * 1) (ly_sub_width ly + ly_fillcount ly + n_seps r)),
    (print_head (if_cs F) (if_case F) B2 sg (al_fill al) ly), u0, (os ++ print_tail (if_cs F) (al_fill al) ly).
  split; [|split; [reflexivity|split; [apply head_ops; assumption|split; [apply Forall_app; split; [exact WO|apply tail_ops; assumption]|split; [unfold zlen in L0, D2, dc; lia|exact HT]]]]].
  unfold punct_print. rewrite E1, D3, Esc. cbn [obind].
  match goal with |- context [if ?a && ?b then ?x else (g, 1)] => replace (if a && b then x else (g, 1)) with (g, 1) by (symmetry; exact Eg) end. rewrite E2, EL. cbn [obind]. replace (n_seps r =? 0) with false by lia. change (1 =? 1) with true. cbv iota. cbv zeta. fold sep low.
  cbn [dig_write_little]. rewrite EO. cbn [obind]. reflexivity.
Qed.
End Binary.
(* such operations, on any destination *)
Lemma unreserved {S} (ops : dest_ops S) R before first rest st t : full_laws ops R -> no_room_fails ops -> Forall op_wf before -> Forall op_wf rest -> (1 <= length first)%nat -> R st t ->
  exists st1, run ops st before = Some st1 /\ R st1 (t ++ ops_text before) /\
  (length first <= d_space ops st1 -> exists st', run ops st (before ++ OReserve 0 first :: rest) = Some st' /\ R st' (t ++ ops_text (before ++ OReserve 0 first :: rest)))%nat /\
  (d_space ops st1 < length first -> run ops st (before ++ OReserve 0 first :: rest) = None)%nat.
Proof.
  intros L N W1 W2 Hf HR. destruct (run_ok ops R L before st t HR W1) as (st1 & E1 & R1). exists st1. split; [exact E1|]. split; [exact R1|].
  rewrite emit_app, E1. cbn [obind run run_op]. unfold ensure. replace (64 <? 0)%nat with false by reflexivity. cbv zeta. replace (d_space ops st1 <? 0)%nat with false by lia. replace (d_space ops st1 <? 0)%nat with false by lia. cbn [obind]. split.
  - intros H. destruct (law_emit _ _ _ L st1 _ first R1 H) as (st2 & E2 & R2 & _). rewrite E2. cbn [obind].
    destruct (run_ok ops R L rest st2 _ R2 W2) as (st3 & E3 & R3). exists st3. split; [exact E3|].
    rewrite ops_text_app. change (ops_text (OReserve 0 first :: rest)) with (first ++ ops_text rest). rewrite !app_assoc in *. exact R3.
  - intros H. rewrite (N st1 first H). reflexivity.
Qed.

(* ---- the library's destinations ---- *)

Lemma cstr_strict : no_room_fails cstr_ops.
Proof. intros st u H. cbn [cstr_ops d_space d_emit] in *. unfold cstr_emit. destruct (Nat.leb_spec (c_ptr st + length u) (c_end st)); [lia|reflexivity]. Qed.
Lemma disc_strict : no_room_fails disc_ops.
Proof. intros st u H. cbn [disc_ops d_space d_emit] in *. destruct (Nat.leb_spec (dc_ptr st + length u) garbage_size); [exfalso; unfold garbage_size in *; lia|reflexivity]. Qed.
Lemma sapp_strict : no_room_fails sapp_ops.
Proof. intros st u H. cbn [sapp_ops d_space d_emit] in *. unfold sapp_emit. destruct (Nat.leb_spec (length (sa_buf st) + length u) min_buf); [lia|reflexivity]. Qed.
Lemma smak_strict : no_room_fails smak_ops.
Proof. intros st u H. cbn [smak_ops d_space d_emit] in *. unfold smak_emit. destruct (Nat.leb_spec (length (sm_buf st) + length u) min_buf); [lia|reflexivity]. Qed.
Lemma szmk_strict : no_room_fails szmk_ops.
Proof. intros st u H. cbn [szmk_ops szmk_ops0 d_space d_emit] in *. unfold szmk_emit. destruct (Nat.leb_spec (sz_ptr st + length u) (sz_end st)); [lia|reflexivity]. Qed.
Lemma cf_strict : no_room_fails cf_ops.
Proof. intros st u H. cbn [cf_ops d_space d_emit] in *. unfold fwr_emit. destruct (Nat.leb_spec (length (fw_buf st) + length u) (fw_cap st)); [lia|reflexivity]. Qed.
Lemma sb_strict : no_room_fails sb_ops.
Proof. intros st u H. cbn [sb_ops d_space d_emit] in *. unfold fwr_emit. destruct (Nat.leb_spec (length (fw_buf st) + length u) (fw_cap st)); [lia|reflexivity]. Qed.
