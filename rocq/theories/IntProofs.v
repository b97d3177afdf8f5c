(* Proofs about IntModel against IntSpec. *)
From Verif Require Import Base WidthModel WidthProofs DestModel DestProofs GroupSpec GroupModel GroupProofs
  DigitsSpec DigitsModel DigitsCount DigitsProofs CharsetModel IntSpec IntModel.

Lemma fill_text_zero c : fill_text c 0 = [].
Proof. reflexivity. Qed.
Lemma fill_text_succ c n : 0 <= n -> fill_text c (n + 1) = fill_text c n ++ c.
Proof.
  intros H. unfold fill_text. replace (Z.to_nat (n + 1)) with (Z.to_nat n + 1)%nat by lia.
  rewrite repeat_app, concat_app. cbn. rewrite app_nil_r. reflexivity.
Qed.
Lemma fill_text_len c n : 0 <= n -> zlen (fill_text c n) = n * zlen c.
Proof.
  intros H. rewrite <- (Z2Nat.id n) at 2 by lia. unfold fill_text. generalize (Z.to_nat n). intros k.
  induction k as [|k IH]; [reflexivity|]. cbn [repeat concat]. rewrite zlen_app, IH. lia.
Qed.
Lemma padded_len a c k t : 0 <= k -> zlen (padded a c k t) = k * zlen c + zlen t.
Proof.
  intros H. unfold padded, right_fill. assert (0 <= left_fill a k <= k) by (destruct a; cbn [left_fill]; lia).
  rewrite !zlen_app, !fill_text_len by lia. nia.
Qed.
Lemma padded_zero a c t : padded a c 0 t = t.
Proof. destruct a; unfold padded, left_fill, right_fill; cbn; apply app_nil_r. Qed.

Lemma fill_ops cs n c : charset_ok cs -> 0 <= c < 2 ^ 32 ->
  let os := if 0 <? n then [cs_fill cs n c] else [] in
  Forall op_wf os /\ ops_text os = fill_text (cs_encode cs c) n.
Proof.
  intros K Hc os. unfold os. destruct (Z.ltb_spec 0 n).
  - destruct (ok_fill cs K n c ltac:(lia) Hc) as [A B]. split; [constructor; [assumption|constructor]|]. unfold ops_text. cbn. rewrite app_nil_r, B. reflexivity.
  - split; [constructor|]. unfold fill_text. replace (Z.to_nat n) with O by lia. reflexivity.
Qed.

Lemma chk_ok x : - 2 ^ 31 <= x < 2 ^ 31 -> chk_i 32 x = Some x.
Proof. intros H. unfold chk_i, in_i. change (32 - 1) with 31. destruct (Z.leb_spec (- 2 ^ 31) x), (Z.ltb_spec x (2 ^ 31)); cbn; try lia; reflexivity. Qed.

Definition head_text (lc : lettercase) (b : ibase) (sign : Z) : list Z :=
  match b with B10 => [sign] | B8 => [48] | _ => [48; prefix_char b lc] end.

Lemma head_ops cs lc b sg c ly : charset_ok cs -> 0 <= c < 2 ^ 32 ->
  Forall op_wf (print_head cs lc b sg c ly) /\
  ops_text (print_head cs lc b sg c ly) =
    fill_text (cs_encode cs c) (ly_left ly) ++ (if ly_has_prefix ly then head_text lc b sg else []) ++
    repeat 48 (Z.to_nat (ly_zeros ly)).
Proof.
  intros K Hc. unfold print_head. destruct (fill_ops cs (ly_left ly) c K Hc) as [A B]. cbv zeta in A, B.
  split.
  - apply Forall_app; split; [exact A|]. apply Forall_app; split.
    + destruct (ly_has_prefix ly); [|constructor]. destruct b; constructor; cbn; try lia; constructor.
    + constructor; [exact I|constructor].
  - rewrite !ops_text_app, B. f_equal. f_equal.
    + destruct (ly_has_prefix ly); [|reflexivity]. destruct b; reflexivity.
    + unfold ops_text. cbn. apply app_nil_r.
Qed.
Lemma tail_ops cs c ly : charset_ok cs -> 0 <= c < 2 ^ 32 ->
  Forall op_wf (print_tail cs c ly) /\ ops_text (print_tail cs c ly) = fill_text (cs_encode cs c) (ly_right ly).
Proof. intros K Hc. exact (fill_ops cs (ly_right ly) c K Hc). Qed.

Definition zeros_for (prec dc n pad0 : Z) : Z := Z.max 0 (Z.max (prec - dc) (pad0 - n)).

Lemma layout_ok cs lc b sg hp ps prec pad0 dc sc al pfx T :
  charset_ok cs -> 0 <= al_fill al < 2 ^ 32 -> is_width (al_width al) ->
  0 <= dc <= 64 -> 0 <= sc <= 64 -> 0 <= ps <= 4 -> prec <= 2 ^ 31 - 256 -> pad0 <= 2 ^ 31 - 256 ->
  (if (bval b =? 10) && (sg =? 32) then hp = true /\ ps = 1 /\ pfx = cs_encode cs (al_fill al)
   else pfx = (if hp then head_text lc b sg else []) /\ zlen pfx = ps) ->
  dc <= zlen T ->
  exists ly, layout_aligned b sg hp ps prec pad0 dc sc al = Some ly /\
    let zeros := zeros_for prec dc (ps + dc + sc) pad0 in
    let cw := ps + zeros + dc + sc in
    let k := Z.max 0 (w_round (al_width al) - cw) in
    let c := al_fill al in
    let res := padded (al_align al) (cs_encode cs c) k (pfx ++ repeat 48 (Z.to_nat zeros) ++ T) in
    (forall o, ops_text o = T -> ops_text (print_head cs lc b sg c ly ++ o ++ print_tail cs c ly) = res) /\
    ly_sub_width ly + ly_fillcount ly + sc = cw + k /\
    0 <= ly_fillcount ly /\
    ly_sub_width ly + ly_fillcount ly * cs_size cs c + (zlen T - dc) = zlen res.
Proof.
  intros K Hc Hw Hdc Hsc Hps Hpr Hpd Hpfx HT. unfold layout_aligned.
  rewrite chk_ok by lia. cbn [obind].
  assert (Ez : Z.max (if dc <? prec then prec - dc else 0)
      (if dc + sc + ps <? pad0 then pad0 - (dc + sc + ps) else 0) = zeros_for prec dc (ps + dc + sc) pad0).
  { unfold zeros_for. destruct (Z.ltb_spec dc prec), (Z.ltb_spec (dc + sc + ps) pad0); lia. }
  rewrite Ez. set (zeros := zeros_for prec dc (ps + dc + sc) pad0).
  assert (Hz : 0 <= zeros <= 2 ^ 31 - 256) by (unfold zeros, zeros_for; lia).
  rewrite chk_ok by lia. cbn [obind].
  replace (dc + sc + ps + zeros) with (ps + zeros + dc + sc) by lia.
  set (cw := ps + zeros + dc + sc). set (fw := w_round (al_width al)). set (c := al_fill al) in *.
  assert (Ecs : cs_size cs c = zlen (cs_encode cs c)) by (apply (ok_size cs K); exact Hc).
  destruct (Z.leb_spec fw cw) as [Hle|Hgt].
  - eexists; split; [reflexivity|]. set (k := Z.max 0 (fw - cw)). set (res := padded _ _ _ _).
    assert (k = 0) by (unfold k; lia). assert (Er : res = pfx ++ repeat 48 (Z.to_nat zeros) ++ T).
    { unfold res. rewrite H. apply padded_zero. }
    cbn [ly_sub_width ly_fillcount].
    destruct ((bval b =? 10) && (sg =? 32)) eqn:Ef; cbn [andb].
    + destruct Hpfx as (-> & -> & Epf). destruct (Z.eqb_spec c 32) as [E32|E32]; cbn [negb andb b2i].
      * split; [|split; [lia|split; [lia|]]].
        { intros o Ho. rewrite !ops_text_app. rewrite Ho.
          destruct (head_ops cs lc b sg c (mk_layout true zeros 0 0 (cw - sc - 0) 0) K Hc) as [_ ->].
          destruct (tail_ops cs c (mk_layout true zeros 0 0 (cw - sc - 0) 0) K Hc) as [_ ->].
          cbn [ly_left ly_has_prefix ly_zeros ly_right]. rewrite fill_text_zero. cbn [app].
          rewrite app_nil_r. rewrite Er, Epf, E32. rewrite (ok_ascii cs K 32) by lia.
          apply andb_prop in Ef as [Eb Es]. destruct b; try discriminate. cbn [head_text].
          apply Z.eqb_eq in Es. rewrite Es. rewrite <- app_assoc. reflexivity. }
        { rewrite Er, !zlen_app. unfold zlen at 3. rewrite repeat_length.
          rewrite Epf, E32, (ok_ascii cs K 32) by lia. change (zlen [32]) with 1. unfold cw. lia. }
      * split; [|split; [lia|split; [lia|]]].
        { intros o Ho. rewrite !ops_text_app. rewrite Ho.
          destruct (head_ops cs lc b sg c (mk_layout false zeros 1 0 (cw - sc - 1) 1) K Hc) as [_ ->].
          destruct (tail_ops cs c (mk_layout false zeros 1 0 (cw - sc - 1) 1) K Hc) as [_ ->].
          cbn [ly_left ly_has_prefix ly_zeros ly_right]. rewrite fill_text_zero. cbn [app].
          rewrite app_nil_r. rewrite Er, Epf. rewrite <- app_assoc. change 1 with (0 + 1). rewrite fill_text_succ by lia.
          reflexivity. }
        { rewrite Er, !zlen_app. unfold zlen at 3. rewrite repeat_length. rewrite Epf. unfold cw. lia. }
    + destruct Hpfx as [Epf Hpl]. cbn [b2i negb]. rewrite andb_true_r.
      split; [|split; [lia|split; [lia|]]].
      { intros o Ho. rewrite !ops_text_app. rewrite Ho.
        destruct (head_ops cs lc b sg c (mk_layout hp zeros 0 0 (cw - sc - 0) 0) K Hc) as [_ ->].
        destruct (tail_ops cs c (mk_layout hp zeros 0 0 (cw - sc - 0) 0) K Hc) as [_ ->].
        cbn [ly_left ly_has_prefix ly_zeros ly_right]. rewrite fill_text_zero. cbn [app].
        rewrite app_nil_r. rewrite Er, Epf. rewrite <- app_assoc. reflexivity. }
      { rewrite Er, !zlen_app. unfold zlen at 3. rewrite repeat_length. rewrite Hpl. unfold cw. lia. }
  - set (fc := fw - cw).
    set (fss := (bval b =? 10) && (sg =? 32)) in *.
    set (lr := match al_align al with
      | ALeft => (b2i fss, fc) | ARight => (fc + b2i fss, 0)
      | ACenter => (Z.shiftr fc 1 + b2i fss, Z.shiftr fc 1 + Z.land fc 1) end).
    assert (Elr : lr = (left_fill (al_align al) fc + b2i fss, right_fill (al_align al) fc)).
    { unfold lr, left_fill, right_fill, left_fill. destruct (al_align al); f_equal; try lia.
      - rewrite shr_div by lia. change (2 ^ 1) with 2. lia.
      - rewrite shr_div by lia. change (2 ^ 1) with 2. change 1 with (Z.ones 1). rewrite land_mod by lia.
        change (2 ^ 1) with 2. lia. }
    rewrite Elr. eexists; split; [reflexivity|]. set (k := Z.max 0 fc). set (res := padded _ _ _ _).
    assert (Ek : k = fc) by (unfold k, fc; lia).
    assert (Hl : 0 <= left_fill (al_align al) fc <= fc) by (unfold fc; destruct (al_align al); cbn [left_fill]; lia).
    cbn [ly_sub_width ly_fillcount].
    split; [|split; [lia|split; [unfold fc; destruct fss; cbn; lia|]]].
    + intros o Ho. rewrite !ops_text_app. rewrite Ho.
      set (ly := mk_layout _ _ _ _ _ _).
      destruct (head_ops cs lc b sg c ly K Hc) as [_ ->]. destruct (tail_ops cs c ly K Hc) as [_ ->].
      unfold ly. cbn [ly_left ly_has_prefix ly_zeros ly_right]. unfold res, padded. rewrite Ek.
      destruct fss; cbn [b2i negb].
      * destruct Hpfx as (-> & -> & ->). cbn [andb]. rewrite fill_text_succ by lia. rewrite <- !app_assoc. reflexivity.
      * destruct Hpfx as [-> Hpl]. rewrite andb_true_r, Z.add_0_r. rewrite <- !app_assoc. reflexivity.
    + unfold res. rewrite padded_len by (rewrite Ek; unfold fc; lia). rewrite !zlen_app.
      unfold zlen at 4. rewrite repeat_length. rewrite Ek.
      destruct fss; cbn [b2i].
      * destruct Hpfx as (-> & -> & ->). unfold cw. lia.
      * destruct Hpfx as [-> Hpl]. rewrite Hpl. unfold cw. lia.
Qed.

Lemma round_zero : w_round 0 = 0.
Proof. reflexivity. Qed.
Lemma layout_default_eq b sg hp ps prec pad0 dc : 0 <= dc <= 64 -> 0 <= ps <= 4 ->
  prec <= 2 ^ 31 - 256 -> pad0 <= 2 ^ 31 - 256 ->
  layout_default hp ps prec pad0 dc = layout_aligned b sg hp ps prec pad0 dc 0 default_align.
Proof.
  intros. unfold layout_default, layout_aligned, default_align. cbn [al_width al_fill al_align]. rewrite round_zero.
  replace (dc + 0 + ps) with (dc + ps) by lia. rewrite chk_ok by lia. cbn [obind].
  set (z := Z.max _ _). assert (0 <= z <= 2 ^ 31 - 256).
  { unfold z. destruct (Z.ltb_spec dc prec), (Z.ltb_spec (dc + ps) pad0); lia. }
  rewrite chk_ok by lia. cbn [obind]. replace (0 <=? dc + ps + z) with true by lia.
  change (32 =? 32) with true. cbn [negb]. rewrite !andb_false_r. cbn [b2i negb]. rewrite andb_true_r. do 2 f_equal. lia.
Qed.

(* ---- values ---- *)
Lemma sbits_cases s : sbits s = 8 \/ sbits s = 16 \/ sbits s = 32 \/ sbits s = 64.
Proof. destruct s; cbn; tauto. Qed.
Ltac sb s := destruct (sbits_cases s) as [Esb|[Esb|[Esb|Esb]]]; rewrite Esb in *.

Lemma unsigned_abs_ok sgn s v : in_int sgn (sbits s) v ->
  unsigned_abs sgn (sbits s) v = Z.abs v /\ 0 <= Z.abs v < 2 ^ sbits s.
Proof.
  unfold in_int, unsigned_abs. destruct sgn; intros H.
  - assert (2 ^ sbits s = 2 * 2 ^ (sbits s - 1)) by (sb s; reflexivity).
    assert (0 < 2 ^ (sbits s - 1)) by (sb s; reflexivity).
    destruct (Z.leb_spec 0 v); [lia|]. split; [|lia]. rewrite (to_u_id _ (- (v + 1))) by lia. rewrite to_u_id by lia. lia.
  - lia.
Qed.
Lemma magnitude_ok lc sgn s v o sep B fill w a b : o_base o = bval b -> in_int sgn (sbits s) v ->
  let r := request lc sgn (sbits s) v o sep B fill w a in
  0 <= magnitude r < 2 ^ sbits s /\ 0 <= magnitude r < 2 ^ 64 /\
  magnitude r = match b with B10 => Z.abs v | _ => to_u (sbits s) v end.
Proof.
  intros Eb Hv r. unfold r, magnitude, request; cbn [rq_base rq_value rq_bits]. rewrite Eb.
  assert (H64 : 2 ^ sbits s <= 2 ^ 64) by (sb s; vm_compute; congruence).
  assert (Hp : 0 < 2 ^ sbits s) by (sb s; reflexivity).
  destruct (unsigned_abs_ok sgn s v Hv) as [_ Ha].
  assert (Hm : 0 <= v mod 2 ^ sbits s < 2 ^ sbits s) by (apply Z.mod_pos_bound; lia).
  destruct b; cbn [bval]; cbn [Z.eqb Pos.eqb]; unfold to_u; (split; [lia|split; [lia|reflexivity]]).
Qed.

(* what init_1 and prefix_of compute *)
Lemma prefix_spec lc sgn s v o sep B fill w a b :
  o_base o = bval b -> in_int sgn (sbits s) v ->
  let r := request lc sgn (sbits s) v o sep B fill w a in
  exists hp0 sg hp ps prec,
    init_1 b (o_sign o) sgn s v = (magnitude r, hp0, sg) /\
    prefix_of b (o_showbase o) (magnitude r) hp0 (o_prec o) = (hp, ps, prec) /\
    (if (bval b =? 10) && (sg =? 32) then hp = true /\ ps = 1 /\ int_prefix r = fill
     else int_prefix r = (if hp then head_text lc b sg else []) /\ zlen (int_prefix r) = ps) /\
    ps = int_prefix_width r /\ 0 <= ps <= 2 /\ prec <= Z.max 0 (o_prec o) /\
    (forall dc, dc = n_digits r -> zeros_for prec dc (ps + dc + n_seps r) (o_pad0 o) = int_zeros r).
Proof.
  intros Eb Hv r.
  destruct (magnitude_ok lc sgn s v o sep B fill w a b Eb Hv) as (M1 & M2 & M3). fold r in M1, M2, M3.
  assert (Hdc : 1 <= n_digits r).
  { unfold n_digits, mag_digits. unfold r at 1, request; cbn [rq_base]. rewrite Eb. apply digits64_len; assumption. }
  assert (Rb : rq_base r = bval b) by exact Eb.
  assert (Rp : rq_precision r = o_prec o) by reflexivity. assert (Rpad : rq_pad0 r = o_pad0 o) by reflexivity.
  assert (Rv : rq_value r = v) by reflexivity. assert (Rs : rq_signed r = sgn) by reflexivity.
  assert (Rsg : rq_sign r = o_sign o) by reflexivity. assert (Rsb : rq_showbase r = o_showbase o) by reflexivity.
  assert (Rc : rq_case r = lc) by reflexivity. assert (Rf : rq_fill r = fill) by reflexivity.
  unfold int_zeros. unfold int_prefix_width, int_prefix. rewrite Rb, Rp, Rpad, Rv, Rs, Rsg, Rsb, Rc, Rf.
  set (nd := n_digits r) in *. set (ns := n_seps r). set (mg := magnitude r) in *.
  clearbody nd ns mg. clear r Rb Rp Rpad Rv Rs Rsg Rsb Rc Rf.
  destruct b; cbn [bval]; cbn [Z.eqb]; cbn [Pos.eqb]; unfold init_1, prefix_of, zeros_for.
  - rewrite <- M3. do 5 eexists. split; [reflexivity|]. split; [reflexivity|]. cbn [andb].
    destruct (o_showbase o), lc; cbn [negb b2i]; change (Z.shiftl 1 1) with 2; change (Z.shiftl 0 1) with 0;
      cbn [low_prefix]; unfold zlen; cbn [length];
      (split; [split; reflexivity|]); (split; [reflexivity|]); (split; [lia|]); (split; [lia|]); intros dc ->; lia.
  - rewrite <- M3. destruct (o_showbase o) eqn:Esb; cbn [negb andb].
    + destruct (Z.eqb_spec mg 0) as [E0|E0]; cbn [negb].
      * do 5 eexists. split; [reflexivity|]. split; [reflexivity|]. cbn [andb]. unfold zlen; cbn [length].
        (split; [split; reflexivity|]); (split; [reflexivity|]); (split; [lia|]); (split; [lia|]); intros dc ->; lia.
      * do 5 eexists. split; [reflexivity|]. split; [reflexivity|]. cbn [andb]. unfold zlen; cbn [length].
        (split; [split; reflexivity|]); (split; [reflexivity|]); (split; [lia|]).
        destruct (Z.ltb_spec 0 (o_prec o)); (split; [lia|]); intros dc ->; lia.
    + do 5 eexists. split; [reflexivity|]. split; [reflexivity|]. cbn [andb]. unfold zlen; cbn [length].
      (split; [split; reflexivity|]); (split; [reflexivity|]); (split; [lia|]); (split; [lia|]); intros dc ->; lia.
  - destruct sgn; cbn [andb orb].
    + destruct (Z.leb_spec 0 v).
      * replace (v <? 0) with false by lia. cbn [orb].
        assert (Ev : v = mg) by lia. rewrite Ev. do 5 eexists. split; [reflexivity|]. split; [reflexivity|].
        destruct (o_sign o); cbn [sign_char]; change (0 =? 32) with false; change (43 =? 32) with false;
          change (32 =? 32) with true; change (negb (0 =? 0)) with false; change (negb (43 =? 0)) with true;
          change (negb (32 =? 0)) with true; cbn [andb b2i head_text]; unfold zlen; cbn [length].
        { (split; [split; reflexivity|]); (split; [reflexivity|]); (split; [lia|]); (split; [lia|]); intros dc ->; lia. }
        { (split; [split; reflexivity|]); (split; [reflexivity|]); (split; [lia|]); (split; [lia|]); intros dc ->; lia. }
        { (split; [split; [|split]; reflexivity|]); (split; [reflexivity|]); (split; [lia|]); (split; [lia|]); intros dc ->; lia. }
      * replace (v <? 0) with true by lia. cbn [orb]. unfold in_int in Hv.
        assert (Eu : to_u 64 (- v) = mg).
        { rewrite to_u_id; [lia|]. lia. }
        rewrite Eu. do 5 eexists. split; [reflexivity|]. split; [reflexivity|].
        change (45 =? 32) with false. cbn [andb b2i head_text]. unfold zlen; cbn [length].
        (split; [split; reflexivity|]); (split; [reflexivity|]); (split; [lia|]); (split; [lia|]); intros dc ->; lia.
    + unfold in_int in Hv. replace (v <? 0) with false by lia. cbn [orb]. replace v with mg by lia.
      do 5 eexists. split; [reflexivity|]. split; [reflexivity|]. change (0 =? 32) with false. cbn [andb b2i].
      unfold zlen; cbn [length].
      (split; [split; reflexivity|]); (split; [reflexivity|]); (split; [lia|]); (split; [lia|]); intros dc ->; lia.
  - rewrite <- M3. do 5 eexists. split; [reflexivity|]. split; [reflexivity|]. cbn [andb].
    destruct (o_showbase o), lc; cbn [negb b2i]; change (Z.shiftl 1 1) with 2; change (Z.shiftl 0 1) with 0;
      cbn [low_prefix]; unfold zlen; cbn [length];
      (split; [split; reflexivity|]); (split; [reflexivity|]); (split; [lia|]); (split; [lia|]); intros dc ->; lia.
Qed.

Lemma ibase_cases b : b = B10 \/ b <> B10.
Proof. destruct b; [right; congruence|right; congruence|left; reflexivity|right; congruence]. Qed.
Lemma ibase_eq_B2 b : b = B2 \/ b <> B2.
Proof. destruct b; [left; reflexivity|right; congruence..]. Qed.

(* ---- printers ---- *)
Definition align_of (al : option align_fmt) : align_fmt := match al with Some a => a | None => default_align end.
Definition prints (p : printed) (r : int_request) : Prop :=
  ops_text (pr_ops p) = int_text r /\ pr_size p = zlen (int_text r) /\ pr_width p = int_text_width r.

Definition align_ok (al : align_fmt) : Prop := 0 <= al_fill al < 2 ^ 32 /\ is_width (al_width al).
Lemma default_align_ok : align_ok default_align.
Proof. split; [cbn; lia|vm_compute; split; congruence]. Qed.

Section Printers.
Variables (F : int_facets) (b : ibase) (o : int_opts) (al : align_fmt) (sgn : bool) (s : isize) (v : Z)
  (gs : list Z) (rep : bool) (enc : list Z).
Hypothesis K : charset_ok (if_cs F).
Hypothesis Eb : o_base o = bval b.
Hypothesis Hv : in_int sgn (sbits s) v.
Hypothesis Hal : align_ok al.
Hypothesis Hprec : o_prec o <= 2 ^ 31 - 256.
Hypothesis Hpad : o_pad0 o <= 2 ^ 31 - 256.

Let r := request (if_case F) sgn (sbits s) v o enc (boundary gs rep)
           (cs_encode (if_cs F) (al_fill al)) (w_round (al_width al)) (al_align al).
Let low := low_digits (if_case F).
Let u := magnitude r.
Let dc := zlen (digits (bval b) u).

Lemma u_ok : 0 <= u < 2 ^ sbits s /\ 0 <= u < 2 ^ 64.
Proof.
  destruct (magnitude_ok (if_case F) sgn s v o enc (boundary gs rep)
           (cs_encode (if_cs F) (al_fill al)) (w_round (al_width al)) (al_align al) b Eb Hv) as (A & B & _).
  split; assumption.
Qed.
Lemma dc_ok : n_digits r = dc /\ 1 <= dc <= 64 /\ count_digits (if_clz F) b S8 u = dc /\ count_digits (if_clz F) b s u = dc.
Proof.
  destruct u_ok as [U1 U2]. split.
  - unfold n_digits, mag_digits, dc. unfold r at 1, request; cbn [rq_base]. rewrite Eb. reflexivity.
  - split; [apply digits64_len; assumption|]. split; apply count_digits_ok; assumption.
Qed.
Lemma dtext_r : map (digit_char low) (mag_digits r) = dtext low (bval b) u.
Proof. unfold mag_digits, dtext, u. unfold r at 1, request; cbn [rq_base]. rewrite Eb. reflexivity. Qed.

(* the common end of both printers *)
Lemma finish_print o' T :
  T = grouped (rq_boundary r) (rq_sep r) (dtext low (bval b) u) ->
  ops_text o' = T ->
  exists hp0 sg hp ps prec ly,
    init_1 b (o_sign o) sgn s v = (u, hp0, sg) /\
    prefix_of b (o_showbase o) u hp0 (o_prec o) = (hp, ps, prec) /\
    layout_aligned b sg hp ps prec (o_pad0 o) dc (n_seps r) al = Some ly /\
    ps <= 4 /\ 0 <= ps /\ prec <= 2 ^ 31 - 256 /\
    ops_text (print_head (if_cs F) (if_case F) b sg (al_fill al) ly ++ o' ++ print_tail (if_cs F) (al_fill al) ly) = int_text r /\
    (Forall op_wf o' -> Forall op_wf (print_head (if_cs F) (if_case F) b sg (al_fill al) ly ++ o' ++ print_tail (if_cs F) (al_fill al) ly)) /\
    0 <= ly_fillcount ly /\
    ly_sub_width ly + ly_fillcount ly * cs_size (if_cs F) (al_fill al) + n_seps r * zlen (rq_sep r) = zlen (int_text r) /\
    ly_sub_width ly + ly_fillcount ly + n_seps r = int_text_width r.
Proof.
  intros ET Ho. destruct Hal as [Hf Hw]. destruct dc_ok as (D1 & D2 & D3 & _).
  destruct (prefix_spec (if_case F) sgn s v o enc (boundary gs rep)
           (cs_encode (if_cs F) (al_fill al)) (w_round (al_width al)) (al_align al) b Eb Hv)
    as (hp0 & sg & hp & ps & prec & E1 & E2 & Hp & Hpw & Hps & Hpr & Hz). fold r in E1, E2, Hp, Hpw, Hz. fold u in E1, E2.
  assert (Hns : 0 <= n_seps r <= Z.max 0 (dc - 1)).
  { unfold n_seps. pose proof (below_le (rq_boundary r) (length (mag_digits r))) as P. unfold n_digits, zlen in D1. lia. }
  assert (HTl : zlen T = dc + n_seps r * zlen (rq_sep r)).
  { rewrite ET, <- dtext_r, grouped_len. unfold zlen at 1. rewrite map_length. fold (zlen (mag_digits r)).
    fold (n_digits r). rewrite D1. reflexivity. }
  destruct (layout_ok (if_cs F) (if_case F) b sg hp ps prec (o_pad0 o) dc (n_seps r) al (int_prefix r) T)
    as (ly & EL & H1 & H2 & H3 & H4); try assumption; try lia.
  { pose proof (zlen_nonneg (rq_sep r)). nia. }
  rewrite (Hz dc) in H1, H2, H4 by lia.
  assert (Ek : Z.max 0 (w_round (al_width al) - (ps + int_zeros r + dc + n_seps r)) = int_missing r).
  { unfold int_missing, int_content_width. rewrite D1, Hpw. reflexivity. }
  rewrite Ek in H1, H2, H4.
  assert (EI : padded (al_align al) (cs_encode (if_cs F) (al_fill al)) (int_missing r)
           (int_prefix r ++ repeat 48 (Z.to_nat (int_zeros r)) ++ T) = int_text r).
  { unfold int_text, int_content. change (rq_case r) with (if_case F). fold low. rewrite dtext_r, <- ET. reflexivity. }
  rewrite EI in H1, H4.
  exists hp0, sg, hp, ps, prec, ly. split; [exact E1|]. split; [exact E2|]. split; [exact EL|]. split; [lia|]. split; [lia|]. split; [lia|].
  split; [apply H1; exact Ho|]. split.
  { intros W. apply Forall_app; split; [apply head_ops; assumption|]. apply Forall_app; split; [exact W|]. apply tail_ops; assumption. }
  split; [exact H3|]. split; [rewrite <- H4, HTl; lia|].
  rewrite H2. unfold int_text_width, int_content_width. rewrite D1, Hpw. lia.
Qed.

Lemma no_seps : o_punct o = false -> n_seps r = 0 /\ grouped (rq_boundary r) (rq_sep r) (dtext low (bval b) u) = dtext low (bval b) u.
Proof.
  intros E. unfold n_seps. unfold r at 1 3, request; cbn [rq_boundary]. rewrite E.
  split; [apply below_none|apply grouped_none]; reflexivity.
Qed.

(* int_printer_static_base_and_punct<Base, false> *)
Lemma static_ok : o_punct o = false ->
  (exists p, static_print F b (o_prec o) (o_pad0 o) (o_sign o) (o_showbase o) (Some al) sgn s v = Some p /\
    prints p r /\ Forall op_wf (pr_ops p)) /\
  (al = default_align ->
   static_print F b (o_prec o) (o_pad0 o) (o_sign o) (o_showbase o) None sgn s v =
   static_print F b (o_prec o) (o_pad0 o) (o_sign o) (o_showbase o) (Some al) sgn s v).
Proof.
  intros Ep. destruct (no_seps Ep) as [N1 N2]. destruct u_ok as [U1 U2]. destruct dc_ok as (D1 & D2 & D3 & _).
  destruct (dig_write_ok b low u U2) as (os & EO & WO & TO). fold dc in EO.
  destruct (finish_print os (dtext low (bval b) u) (eq_sym N2) TO)
    as (hp0 & sg & hp & ps & prec & ly & E1 & E2 & EL & P1 & P2 & P3 & HT & HW & Hfc & HS & HD).
  rewrite N1 in EL, HS, HD. rewrite Z.mul_0_l, Z.add_0_r in HS. rewrite Z.add_0_r in HD.
  unfold static_print. rewrite E1, D3, E2. split.
  - rewrite EL. cbn [obind]. fold low. rewrite EO. cbn [obind]. eexists; split; [reflexivity|].
    cbn [pr_ops]. split; [|apply HW; exact WO].
    split; [exact HT|]. cbn [pr_size pr_width]. split; [|exact HD]. rewrite <- HS.
    destruct (Z.ltb_spec 0 (ly_fillcount ly)); [reflexivity|]. replace (ly_fillcount ly) with 0 by lia. lia.
  - intros Ea. rewrite (layout_default_eq b sg) by lia. rewrite Ea. reflexivity.
Qed.

(* int_printer_static_base_and_punct<Base, true> *)
Lemma punct_ok sepchar (Hsep : 0 <= sepchar < 2 ^ 32) g : enc = cs_encode (if_cs F) sepchar -> represents g gs rep -> o_punct o = true ->
  (sepchar < 0x80 \/ cs_validate (if_cs F) sepchar <> -1 \/ n_seps r = 0) ->
  exists p, punct_print F b (o_prec o) (o_pad0 o) (o_sign o) (o_showbase o) al g sepchar sgn s v = Some p /\
    prints p r /\
    ((b = B2 -> zlen (cs_encode (if_cs F) sepchar) <> 1 \/ n_seps r = 0) -> Forall op_wf (pr_ops p)).
Proof.
  intros Eenc Hr Ep Hvalid. destruct u_ok as [U1 U2]. destruct dc_ok as (D1 & D2 & D3 & _).
  assert (RB : rq_boundary r = boundary gs rep) by (unfold r, request; cbn [rq_boundary]; rewrite Ep; reflexivity).
  assert (RS : rq_sep r = cs_encode (if_cs F) sepchar) by exact Eenc.
  assert (NS : n_seps r = boundaries_below (boundary gs rep) (length (digits (bval b) u))).
  { unfold n_seps. rewrite RB. unfold mag_digits. change (rq_base r) with (o_base o). rewrite Eb. reflexivity. }
  assert (Esc : separators_count g dc = Some (n_seps r)).
  { rewrite NS. rewrite (separators_count_ok g gs rep dc Hr) by lia. unfold dc, zlen. rewrite Nat2Z.id. reflexivity. }
  assert (Hsm : 1 <= zlen (cs_encode (if_cs F) sepchar) <= 4) by (apply (ok_small _ K); exact Hsep).
  (* the digits with separators, and the size of a separator *)
  set (g' := if (0x80 <=? sepchar) && negb (n_seps r =? 0) then
      let size := cs_validate (if_cs F) sepchar in if size =? -1 then (grouping_empty, 0) else (g, size)
    else (g, 1)).
  assert (Hg' : exists sz, g' = (g, sz) /\ (n_seps r = 0 \/ sz = zlen (cs_encode (if_cs F) sepchar))).
  { unfold g'. destruct (Z.eqb_spec (n_seps r) 0) as [E0|E0]; cbn [negb].
    - rewrite andb_false_r. exists 1; split; [reflexivity|left; exact E0].
    - destruct (Z.leb_spec 128 sepchar); cbn [andb].
      + destruct (ok_validate _ K sepchar Hsep) as [V|V]; [exfalso; lia|]. cbv zeta.
        destruct (Z.eqb_spec (cs_validate (if_cs F) sepchar) (-1)) as [|Hn]; [lia|].
        eexists; split; [reflexivity|right; exact V].
      + exists 1; split; [reflexivity|]. right. rewrite (ok_ascii _ K) by lia. reflexivity. }
  destruct Hg' as (sz & Eg' & Hsz).
  set (wr := if n_seps r =? 0 then dig_write b low u dc
    else if sz =? 1 then
      let sep := if 0x80 <=? sepchar then hd 0 (cs_encode (if_cs F) sepchar) else sepchar in
      dig_write_little b low u g dc (n_seps r) sep
    else dig_write_big b low u g (cs_encode (if_cs F) sepchar) sz dc).
  assert (Hw : exists os, wr = Some os /\ ops_text os = grouped (rq_boundary r) (rq_sep r) (dtext low (bval b) u) /\
     ((b = B2 -> zlen (cs_encode (if_cs F) sepchar) <> 1 \/ n_seps r = 0) -> Forall op_wf os)).
  { rewrite RB, RS. unfold wr. destruct (Z.eqb_spec (n_seps r) 0) as [E0|E0].
    - destruct (dig_write_ok b low u U2) as (os & EO & WO & TO). exists os. split; [exact EO|]. split; [|intros _; exact WO].
      rewrite TO. symmetry.
      assert (HL := grouped_len (boundary gs rep) (cs_encode (if_cs F) sepchar) (dtext low (bval b) u)).
      assert (boundaries_below (boundary gs rep) (length (dtext low (bval b) u)) = 0).
      { unfold dtext. rewrite map_length. lia. }
      apply grouped_none. intros i Hi.
      destruct (boundary gs rep i) eqn:Eb'; [|reflexivity]. exfalso.
      assert (Hpos : forall n, i < Z.of_nat n -> 1 <= boundaries_below (boundary gs rep) n).
      { induction n as [|n IH]; intros Hn; [lia|]. cbn [boundaries_below].
        pose proof (below_le (boundary gs rep) n). destruct (Z.eq_dec i (Z.of_nat n)) as [E|E].
        - rewrite <- E, Eb'. replace (0 <? i) with true by lia. cbn [andb]. lia.
        - specialize (IH ltac:(lia)). destruct ((0 <? Z.of_nat n) && boundary gs rep (Z.of_nat n)); lia. }
      unfold zlen in Hi. specialize (Hpos (length (dtext low (bval b) u)) ltac:(lia)). lia.
    - destruct Hsz as [|Hsz]; [contradiction|].
      assert (U3 : b = B2 -> 2 <= u).
      { intros E2. pose proof (below_le (boundary gs rep) (length (digits (bval b) u))). rewrite E2 in *. cbn [bval] in *.
        apply (two_digits_ge 2 u); unfold zlen; lia. }
      destruct (Z.eqb_spec sz 1) as [E1|E1].
      + cbv zeta. set (sep := if 128 <=? sepchar then _ else _).
        assert (Esep : cs_encode (if_cs F) sepchar = [sep]).
        { unfold sep. destruct (Z.leb_spec 128 sepchar); [|apply (ok_ascii _ K); lia].
          destruct (cs_encode (if_cs F) sepchar) as [|x [|y l]]; unfold zlen in Hsz; cbn [length] in Hsz; try lia. reflexivity. }
        rewrite Esep. destruct (ibase_eq_B2 b) as [E2|E2].
        * assert (U4 : 2 <= u < 2 ^ 64) by (specialize (U3 E2); lia). subst b.
          destruct (write_little_bin_ok low u g gs rep sep U4 Hr) as (u0 & os & EO & _ & _ & TO).
          eexists. split; [exact EO|]. split; [exact TO|]. intros X. destruct (X eq_refl) as [X1|X1]; [|contradiction].
          cbn in X1. lia.
        * rewrite NS. destruct (dig_write_little_ok b low u g gs rep sep E2 U2 Hr) as (os & EO & WO & TO).
          { pose proof (below_le (boundary gs rep) (length (digits (bval b) u))). lia. }
          exists os. split; [exact EO|]. split; [exact TO|]. intros _; exact WO.
      + destruct (dig_write_big_ok b low u g gs rep (cs_encode (if_cs F) sepchar) sz U2 Hr) as (os & EO & WO & TO); [lia|lia|exact U3|].
        exists os. split; [exact EO|]. split; [exact TO|]. intros _; exact WO. }
  destruct Hw as (os & EO & TO & WO).
  destruct (finish_print os _ eq_refl TO)
    as (hp0 & sg & hp & ps & prec & ly & E1 & E2 & EL & P1 & P2 & P3 & HT & HW & Hfc & HS & HD).
  unfold punct_print. rewrite E1, D3, Esc. cbn [obind]. fold g'. rewrite Eg', E2, EL. cbn [obind]. fold low. fold wr.
  rewrite EO. cbn [obind]. eexists; split; [reflexivity|]. cbn [pr_ops]. split; [|intros X; apply HW; apply WO; exact X].
  split; [exact HT|]. cbn [pr_size pr_width]. split; [|exact HD]. rewrite <- HS, RS.
  replace (if ly_fillcount ly =? 0 then 0 else ly_fillcount ly * cs_size (if_cs F) (al_fill al))
    with (ly_fillcount ly * cs_size (if_cs F) (al_fill al)) by (destruct (Z.eqb_spec (ly_fillcount ly) 0); lia).
  destruct Hsz as [Hsz|Hsz]; [rewrite Hsz; lia|rewrite Hsz; reflexivity].
Qed.
(* a separator that cannot be encoded: its columns are counted, nothing is written for it *)
Lemma big_empty low' w m d e : dig_write_big b low' w grouping_empty e m d = dig_write_big b low' w grouping_empty [] m d.
Proof.
  assert (D : distribute grouping_empty d = Some (mk_dist 0 0 d)) by reflexivity.
  assert (L : forall x ds, big_low 8 x m 0 ds = Some []) by reflexivity.
  assert (B : forall x w0 mask, bin_low 8 m x w0 mask 0 = Some []) by reflexivity.
  destruct b; cbn [dig_write_big].
  1: { unfold write_big_bin. destruct (w <=? 1); [reflexivity|]. rewrite D. cbn [obind]. unfold bin_groups. cbn [dist_highest dist_middle dist_low]. change (0 =? 0) with true. cbv iota.
       destruct (bits_run _ _ _). rewrite !B. reflexivity. }
  all: unfold write_big; rewrite D; destruct (write_back _ _ _) as [ds|]; cbn [obind]; [|reflexivity]; destruct (_ <? _); [reflexivity|];
    cbv zeta; cbn [dist_highest dist_middle dist_low]; change (0 =? 0) with true; cbv iota; rewrite !L; reflexivity.
Qed.
Lemma grouped_nil B ds : grouped B [] ds = ds.
Proof. induction ds as [|d t IH]; cbn [grouped]; [reflexivity|]. rewrite IH. destruct t; [reflexivity|]. destruct (B _); reflexivity. Qed.
Lemma punct_bad_ok sepchar (Hsep : 0 <= sepchar < 2 ^ 32) g : enc = [] -> represents g gs rep -> o_punct o = true ->
  0x80 <= sepchar -> cs_validate (if_cs F) sepchar = -1 -> n_seps r <> 0 ->
  exists p, punct_print F b (o_prec o) (o_pad0 o) (o_sign o) (o_showbase o) al g sepchar sgn s v = Some p /\
    prints p r /\ Forall op_wf (pr_ops p).
Proof.
  intros Eenc Hr Ep Hs1 Hs2 Hn. destruct u_ok as [U1 U2]. destruct dc_ok as (D1 & D2 & D3 & _).
  assert (RB : rq_boundary r = boundary gs rep) by (unfold r, request; cbn [rq_boundary]; rewrite Ep; reflexivity).
  assert (RS : rq_sep r = []) by exact Eenc.
  assert (NS : n_seps r = boundaries_below (boundary gs rep) (length (digits (bval b) u))).
  { unfold n_seps. rewrite RB. unfold mag_digits. change (rq_base r) with (o_base o). rewrite Eb. reflexivity. }
  assert (Esc : separators_count g dc = Some (n_seps r)).
  { rewrite NS. rewrite (separators_count_ok g gs rep dc Hr) by lia. unfold dc, zlen. rewrite Nat2Z.id. reflexivity. }
  assert (U3 : b = B2 -> 2 <= u).
  { intros E2. pose proof (below_le (boundary gs rep) (length (digits (bval b) u))). rewrite E2 in *. cbn [bval] in *.
    apply (two_digits_ge 2 u); unfold zlen; lia. }
  assert (R0 : represents grouping_empty [] false) by (split; [split; [constructor|cbn; lia]|]; split; reflexivity).
  destruct (dig_write_big_ok b low u grouping_empty [] false [] 0 U2 R0 eq_refl ltac:(lia) U3) as (os & EO & WO & TO).
  rewrite grouped_nil in TO.
  destruct (finish_print os _ eq_refl) as (hp0 & sg & hp & ps & prec & ly & E1 & E2 & EL & P1 & P2 & P3 & HT & HW & Hfc & HS & HD).
  { rewrite RS, grouped_nil. exact TO. }
  unfold punct_print. rewrite E1, D3, Esc. cbn [obind]. replace (0x80 <=? sepchar) with true by lia. destruct (Z.eqb_spec (n_seps r) 0) as [E0|_]; [contradiction|].
  cbn [negb andb]. rewrite Hs2. change (-1 =? -1) with true. cbv iota zeta. rewrite E2, EL. cbn [obind]. fold low. change (0 =? 1) with false. cbv iota.
  rewrite big_empty. fold dc in EO. rewrite EO. cbn [obind]. eexists; split; [reflexivity|]. cbn [pr_ops]. split; [|apply HW; exact WO].
  split; [exact HT|]. cbn [pr_size pr_width]. split; [|exact HD]. rewrite <- HS, RS.
  destruct (Z.eqb_spec (ly_fillcount ly) 0); change (zlen []) with 0; lia.
Qed.
End Printers.

Lemma write_back10_ok lower v : 0 <= v < 2 ^ 64 -> write_back B10 false v = Some (dtext lower 10 v).
Proof. intros H. exact (write_back_ok B10 lower v ltac:(congruence) H). Qed.

(* no precision, no pad0, no separators *)
Lemma plain_text lc sgn s v b sign sb sep B fill w a : in_int sgn (sbits s) v ->
  let r := request lc sgn (sbits s) v (mk_opts (bval b) 0 0 sign sb false) sep B fill w a in
  let dc := zlen (digits (bval b) (magnitude r)) in
  int_text r = padded a fill (Z.max 0 (w - (int_prefix_width r + dc)))
                 (int_prefix r ++ dtext (low_digits lc) (bval b) (magnitude r)) /\
  int_text_width r = Z.max w (int_prefix_width r + dc) /\ 0 <= int_prefix_width r <= 2 /\ 1 <= dc <= 64.
Proof.
  intros Hv r dc.
  destruct (magnitude_ok lc sgn s v (mk_opts (bval b) 0 0 sign sb false) sep B fill w a b eq_refl Hv) as (M1 & M2 & _).
  fold r in M1, M2. pose proof (digits64_len b (magnitude r) M2) as [Hd _]. fold dc in Hd.
  destruct (prefix_spec lc sgn s v (mk_opts (bval b) 0 0 sign sb false) sep B fill w a b eq_refl Hv)
    as (hp0 & sg & hp & ps & prec & _ & _ & _ & Hpw & Hps & _). fold r in Hpw.
  assert (Hn : n_digits r = dc) by reflexivity.
  assert (Hns : n_seps r = 0) by (unfold n_seps; apply below_none; reflexivity).
  assert (Hz : int_zeros r = 0).
  { unfold int_zeros. rewrite Hn, Hns. change (rq_precision r) with 0. change (rq_pad0 r) with 0.
    destruct (rq_base r =? 8); lia. }
  assert (Hc : int_content r = int_prefix r ++ dtext (low_digits lc) (bval b) (magnitude r)).
  { unfold int_content. rewrite Hz. cbn [Z.to_nat repeat app]. f_equal. apply grouped_none. reflexivity. }
  assert (Hcw : int_content_width r = int_prefix_width r + dc) by (unfold int_content_width; rewrite Hn, Hns, Hz; lia).
  unfold int_text, int_text_width, int_missing. rewrite Hc, Hcw. split; [reflexivity|]. change (rq_width r) with w.
  split; [lia|]. lia.
Qed.

Lemma default_print_ok clz lc cs sgn s v sep B : charset_ok cs -> in_int sgn (sbits s) v ->
  exists p, default_print clz sgn s v = Some p /\
    prints p (request lc sgn (sbits s) v (opts_of FDefault) sep B (cs_encode cs 32) 0 ARight) /\ Forall op_wf (pr_ops p).
Proof.
  intros K Hv. change (opts_of FDefault) with (mk_opts (bval B10) 0 0 NegativeOnly false false). set (r := request _ _ _ _ _ _ _ _ _ _).
  destruct (plain_text lc sgn s v B10 NegativeOnly false sep B (cs_encode cs 32) 0 ARight Hv) as (T & W & P & D).
  fold r in T, W, P, D. destruct (unsigned_abs_ok sgn s v Hv) as [Eu Hu].
  assert (Em : magnitude r = Z.abs v) by reflexivity.
  assert (H64 : 0 <= Z.abs v < 2 ^ 64).
  { assert (2 ^ sbits s <= 2 ^ 64) by (sb s; vm_compute; congruence). lia. }
  unfold default_print. rewrite Eu, count_digits_ok by exact Hu. rewrite (write_back10_ok (low_digits lc)) by exact H64.
  cbn [obind]. rewrite dtext_len, Z.eqb_refl.
  assert (Eneg : sgn && (v <? 0) = (v <? 0)). { destruct sgn; [reflexivity|]. unfold in_int in Hv. cbn [andb]. lia. }
  rewrite Eneg. cbn [bval] in *. rewrite Em in *. set (dc := zlen (digits 10 (Z.abs v))) in *.
  assert (Ep : int_prefix r = (if v <? 0 then [45] else []) /\ int_prefix_width r = b2i (v <? 0)).
  { unfold int_prefix, int_prefix_width. cbn. destruct (v <? 0); [split; reflexivity|]. destruct sgn; split; reflexivity. }
  destruct Ep as [Ep1 Ep2]. rewrite Ep1, Ep2 in *.
  replace (Z.max 0 (0 - (b2i (v <? 0) + dc))) with 0 in T by lia. rewrite padded_zero in T.
  assert (Hlen : zlen ((if v <? 0 then [45] else []) ++ dtext (low_digits lc) 10 (Z.abs v)) = dc + b2i (v <? 0)).
  { rewrite zlen_app, dtext_len. fold dc. destruct (v <? 0); cbn [b2i]; unfold zlen; cbn [length]; lia. }
  eexists; split; [reflexivity|]. cbn [pr_ops]. split.
  - unfold prints. cbn [pr_ops pr_size pr_width]. rewrite T, W. split; [unfold ops_text; cbn; apply app_nil_r|]. split; [lia|lia].
  - constructor; [|constructor]. cbn [op_wf]. unfold zlen in Hlen.
    assert (dc <= 22) by (apply (digits64_len B10); [assumption|congruence]). lia.
Qed.

Lemma aligned_default_print_ok clz lc cs al sgn s v sep B : charset_ok cs -> in_int sgn (sbits s) v -> align_ok al ->
  exists p, aligned_default_print clz cs al sgn s v = Some p /\
    prints p (request lc sgn (sbits s) v (opts_of FDefault) sep B (cs_encode cs (al_fill al)) (w_round (al_width al)) (al_align al)) /\
    Forall op_wf (pr_ops p).
Proof.
  intros K Hv [Hf Hw]. change (opts_of FDefault) with (mk_opts (bval B10) 0 0 NegativeOnly false false). set (r := request _ _ _ _ _ _ _ _ _ _).
  destruct (plain_text lc sgn s v B10 NegativeOnly false sep B (cs_encode cs (al_fill al)) (w_round (al_width al)) (al_align al) Hv) as (T & W & P & D).
  fold r in T, W, P, D. destruct (unsigned_abs_ok sgn s v Hv) as [Eu Hu].
  assert (Em : magnitude r = Z.abs v) by reflexivity.
  assert (H64 : 0 <= Z.abs v < 2 ^ 64).
  { assert (2 ^ sbits s <= 2 ^ 64) by (sb s; vm_compute; congruence). lia. }
  unfold aligned_default_print. rewrite Eu, count_digits_ok by exact Hu. rewrite (write_back10_ok (low_digits lc)) by exact H64.
  cbn [obind]. rewrite dtext_len, Z.eqb_refl.
  assert (Eneg : sgn && (v <? 0) = (v <? 0)). { destruct sgn; [reflexivity|]. unfold in_int in Hv. cbn [andb]. lia. }
  rewrite Eneg. cbn [bval] in *. rewrite Em in *. set (dc := zlen (digits 10 (Z.abs v))) in *.
  assert (Ep : int_prefix r = (if v <? 0 then [45] else []) /\ int_prefix_width r = b2i (v <? 0)).
  { unfold int_prefix, int_prefix_width. cbn. destruct (v <? 0); [split; reflexivity|]. destruct sgn; split; reflexivity. }
  destruct Ep as [Ep1 Ep2]. rewrite Ep1, Ep2 in *.
  set (body := (if v <? 0 then [45] else []) ++ dtext (low_digits lc) 10 (Z.abs v)) in *.
  assert (Hlen : zlen body = dc + b2i (v <? 0)).
  { unfold body. rewrite zlen_app, dtext_len. fold dc. destruct (v <? 0); cbn [b2i]; unfold zlen; cbn [length]; lia. }
  set (w := w_round (al_width al)) in *. set (sw := dc + b2i (v <? 0)) in *.
  set (fc := if sw <? w then w - sw else 0).
  assert (Efc : Z.max 0 (w - (b2i (v <? 0) + dc)) = fc).
  { unfold fc, sw. destruct (Z.ltb_spec (dc + b2i (v <? 0)) w); lia. }
  rewrite Efc in T. assert (Hfc : 0 <= fc) by (rewrite <- Efc; lia).
  set (right := if 0 <? fc then match al_align al with ALeft => fc | ARight => 0 | ACenter => fc - Z.shiftr fc 1 end else 0).
  assert (Er : right = right_fill (al_align al) fc).
  { unfold right, right_fill, left_fill. rewrite shr_div by lia. change (2 ^ 1) with 2.
    destruct (Z.ltb_spec 0 fc), (al_align al); lia. }
  set (left_ops := if 0 <? fc then _ else _).
  assert (HL : Forall op_wf left_ops /\ ops_text left_ops = fill_text (cs_encode cs (al_fill al)) (left_fill (al_align al) fc)).
  { unfold left_ops. destruct (Z.ltb_spec 0 fc).
    - destruct (al_align al); cbn [left_fill]; [split; [constructor|reflexivity]| |];
        match goal with |- context [cs_fill cs ?n _] => assert (0 <= n) as An by (rewrite ?shr_div by lia; change (2 ^ 1) with 2; try apply Z.div_pos; lia); pose proof (ok_fill cs K n (al_fill al) An Hf) as [A1 A2] end;
        (split; [constructor; [exact A1|constructor]|]); unfold ops_text; cbn [map concat]; rewrite app_nil_r, A2; unfold fill_text; do 3 f_equal.
      rewrite shr_div by lia. change (2 ^ 1) with 2. reflexivity.
    - replace fc with 0 by lia. destruct (al_align al); split; try constructor; reflexivity. }
  destruct HL as [HL1 HL2].
  destruct (fill_ops cs right (al_fill al) K Hf) as [HR1 HR2]. cbv zeta in HR1, HR2.
  eexists; split; [reflexivity|]. cbn [pr_ops]. split.
  - unfold prints. cbn [pr_ops pr_size pr_width]. rewrite T, W. split; [|split].
    + rewrite !ops_text_app, HL2, HR2, Er. unfold padded. do 2 f_equal. unfold ops_text; cbn; apply app_nil_r.
    + rewrite padded_len by exact Hfc. rewrite Hlen, (ok_size cs K) by exact Hf. unfold sw. lia.
    + unfold sw in *. lia.
  - apply Forall_app; split; [exact HL1|]. apply Forall_app; split; [|exact HR1].
    constructor; [|constructor]. cbn [op_wf]. unfold zlen in Hlen.
    assert (dc <= 22) by (apply (digits64_len B10); [assumption|congruence]). lia.
Qed.

(* int_printer_no_pad0_nor_punct; in decimal the reserved space is wrong *)
Lemma nopad_print_ok clz lc cs b sign sb sgn s v sep B : charset_ok cs -> in_int sgn (sbits s) v ->
  exists p, nopad_print clz lc b sign sb sgn s v = Some p /\
    prints p (request lc sgn (sbits s) v (opts_of (FNoPad b sign sb)) sep B (cs_encode cs 32) 0 ARight) /\
    (b <> B10 -> Forall op_wf (pr_ops p)).
Proof.
  intros K Hv. change (opts_of (FNoPad b sign sb)) with (mk_opts (bval b) 0 0 sign sb false). set (r := request _ _ _ _ _ _ _ _ _ _).
  destruct (plain_text lc sgn s v b sign sb sep B (cs_encode cs 32) 0 ARight Hv) as (T & W & P & D).
  fold r in T, W, P, D. destruct (unsigned_abs_ok sgn s v Hv) as [Eu Hu].
  destruct (magnitude_ok lc sgn s v (mk_opts (bval b) 0 0 sign sb false) sep B (cs_encode cs 32) 0 ARight b eq_refl Hv) as (M1 & M2 & M3).
  fold r in M1, M2, M3. set (u := magnitude r) in *. set (dc := zlen (digits (bval b) u)) in *.
  assert (Hcd : count_digits clz b s u = dc) by (apply count_digits_ok; exact M1).
  replace (Z.max 0 (0 - (int_prefix_width r + dc))) with 0 in T by lia. rewrite padded_zero in T.
  replace (Z.max 0 (int_prefix_width r + dc)) with (int_prefix_width r + dc) in W by lia.
  destruct (ibase_cases b) as [E10|E10].
  - subst b. unfold nopad_print. rewrite Eu, <- M3, Hcd.
    set (prefix := if sgn then if 0 <=? v then sign_char sign else 45 else 0).
    assert (Ep : int_prefix r = (if prefix =? 0 then [] else [prefix]) /\ int_prefix_width r = b2i (negb (prefix =? 0))).
    { unfold prefix, int_prefix, int_prefix_width. cbn [r request rq_base rq_value rq_signed rq_sign rq_fill opts_of o_base o_sign bval].
      change (10 =? 10) with true. unfold in_int in Hv. destruct sgn.
      - destruct (Z.leb_spec 0 v).
        + replace (v <? 0) with false by lia. destruct sign; try (split; reflexivity).
          rewrite (ok_ascii cs K) by lia. split; reflexivity.
        + replace (v <? 0) with true by lia. split; reflexivity.
      - replace (v <? 0) with false by lia. split; reflexivity. }
    destruct Ep as [Ep1 Ep2]. rewrite (write_back10_ok (low_digits lc)) by exact M2. cbn [obind].
    rewrite dtext_len. fold dc. rewrite Z.eqb_refl. eexists; split; [reflexivity|]. split; [|congruence].
    unfold prints. cbn [pr_ops pr_size pr_width]. rewrite T, W, Ep1, Ep2.
    split; [unfold ops_text; cbn; apply app_nil_r|]. split; [|lia].
    rewrite zlen_app, dtext_len. fold dc. destruct (prefix =? 0); cbn [negb b2i]; unfold zlen; cbn [length]; lia.
  - assert (M3' : to_u (sbits s) v = u) by (destruct b; congruence).
    set (prefix := match b with B8 => b2i (sb && negb (v =? 0)) | _ => Z.shiftl (b2i sb) 1 end).
    assert (Ev0 : b = B8 -> (v =? 0) = (u =? 0)).
    { intros _. rewrite <- M3'. unfold to_u, in_int in *.
      destruct sgn; [|rewrite Z.mod_small by lia; reflexivity].
      assert (2 ^ sbits s = 2 * 2 ^ (sbits s - 1)) by (sb s; reflexivity).
      assert (0 < 2 ^ (sbits s - 1)) by (sb s; reflexivity).
      destruct (Z.eqb_spec v 0) as [->|]; [rewrite Z.mod_0_l by lia; reflexivity|].
      symmetry; apply Z.eqb_neq. intros E. apply Z.mod_divide in E; [|lia]. destruct E as [q Hq].
      rewrite H in Hq. clear - Hq Hv H0 n. set (M := 2 ^ (sbits s - 1)) in *. clearbody M.
      destruct (Z.lt_trichotomy q 0) as [|[->|]]; [nia|lia|nia]. }
    assert (Ep : int_prefix r = (if prefix =? 0 then [] else match b with B8 => [48] | _ => [48; prefix_char b lc] end) /\ int_prefix_width r = prefix /\ zlen (int_prefix r) = prefix).
    { unfold prefix, int_prefix_width, int_prefix. fold u. cbn [r request rq_base rq_value rq_signed rq_sign rq_fill rq_showbase rq_case opts_of o_base o_sign o_showbase].
      destruct b; try congruence; cbn [bval].
      - change (2 =? 10) with false. change (2 =? 8) with false. change (2 =? 16) with false. cbn [andb].
        destruct sb, lc; (split; [reflexivity|split; reflexivity]).
      - change (8 =? 10) with false. change (8 =? 8) with true. rewrite (Ev0 eq_refl).
        destruct sb, (u =? 0); (split; [reflexivity|split; reflexivity]).
      - change (16 =? 10) with false. change (16 =? 8) with false. change (16 =? 16) with true. cbn [andb].
        destruct sb, lc; (split; [reflexivity|split; reflexivity]). }
    destruct Ep as (Ep1 & Ep2 & Ep3).
    assert (Hlen : zlen (int_prefix r ++ dtext (low_digits lc) (bval b) u) = dc + prefix).
    { rewrite zlen_app, dtext_len. fold dc. lia. }
    destruct (ibase_eq_B2 b) as [E2|E2].
    + subst b. unfold nopad_print. rewrite M3'. fold prefix. rewrite Hcd.
      destruct (dig_write_ok B2 (low_digits lc) u M2) as (os & EO & WO & TO). fold dc in EO.
      change (dig_write B2 false u dc) with (dig_write B2 (low_digits lc) u dc). rewrite EO. cbn [obind].
      eexists; split; [reflexivity|]. cbn [pr_ops]. split.
      * unfold prints. cbn [pr_ops pr_size pr_width]. rewrite T, W. split; [|split; lia].
        rewrite ops_text_app, TO, Ep1. f_equal; destruct (prefix =? 0); reflexivity.
      * intros _. apply Forall_app; split; [|exact WO]. destruct (prefix =? 0); constructor; [cbn [op_wf length]; lia|constructor].
    + assert (En : nopad_print clz lc b sign sb sgn s v =
        (do x <- write_back b (low_digits lc) u ;
          if zlen x =? dc then
            let pt := if prefix =? 0 then [] else match b with B8 => [48] | _ => [48; prefix_char B16 lc] end in
            Some (mk_printed [OReserve (Z.to_nat (dc + prefix)) (pt ++ x)] (dc + prefix) (dc + prefix))
          else None)).
      { rewrite <- Hcd, <- M3'. destruct b; try congruence; reflexivity. }
      rewrite En. rewrite write_back_ok by assumption. cbn [obind]. rewrite dtext_len. fold dc. rewrite Z.eqb_refl. cbv zeta.
      assert (Ept : (if prefix =? 0 then [] else match b with B8 => [48] | _ => [48; prefix_char B16 lc] end) = int_prefix r).
      { rewrite Ep1. destruct b; try congruence; reflexivity. }
      rewrite Ept. eexists; split; [reflexivity|]. split.
      * unfold prints. cbn [pr_ops pr_size pr_width]. rewrite T, W. split; [unfold ops_text; cbn; apply app_nil_r|]. split; [lia|lia].
      * intros _. constructor; [|constructor]. cbn [op_wf]. unfold zlen in Hlen. fold dc in D.
        assert (dc <= 22) by (apply digits64_len; assumption). lia.
Qed.

Lemma dyn_bval n : bval (dyn_base n) = if n =? 16 then 16 else if n =? 8 then 8 else if n =? 2 then 2 else 10.
Proof. unfold dyn_base. destruct (n =? 16), (n =? 8), (n =? 2); reflexivity. Qed.

Definition fmt_base (f : int_fmt) : ibase :=
  match f with FDefault => B10 | FNoPad b _ _ => b | FStatic b _ _ _ _ _ => b | FDyn n _ _ _ _ _ => dyn_base n end.
Lemma fmt_base_ok f : o_base (opts_of f) = bval (fmt_base f).
Proof. destruct f; reflexivity. Qed.

(* what printing v with format f, alignment al and facets F asks for *)
Definition request_of (F : int_facets) (gs : ibase -> list Z) (rep : ibase -> bool) (f : int_fmt)
    (al : option align_fmt) (sgn : bool) (s : isize) (v : Z) : int_request :=
  let b := fmt_base f in
  request (if_case F) sgn (sbits s) v (opts_of f)
    (cs_encode (if_cs F) (if_sep F b)) (boundary (gs b) (rep b))
    (cs_encode (if_cs F) (al_fill (align_of al))) (w_round (al_width (align_of al))) (al_align (align_of al)).

(* the facets: charset laws, and groupings that stand for the lists gs/rep *)
Record facets_ok (F : int_facets) (gs : ibase -> list Z) (rep : ibase -> bool) : Prop := mk_facets_ok {
  fk_cs : charset_ok (if_cs F);
  fk_grouping : forall b, represents (if_grouping F b) (gs b) (rep b);
  fk_sep : forall b, 0 <= if_sep F b < 2 ^ 32 }.
Definition opts_ok (o : int_opts) : Prop := o_prec o <= 2 ^ 31 - 256 /\ o_pad0 o <= 2 ^ 31 - 256.
Definition sep_ok (F : int_facets) (f : int_fmt) (r : int_request) : Prop :=
  if_sep F (fmt_base f) < 0x80 \/ cs_validate (if_cs F) (if_sep F (fmt_base f)) <> -1 \/ n_seps r = 0.
(* formats that reserve the space they write in *)
Definition reserves (F : int_facets) (f : int_fmt) (al : option align_fmt) (r : int_request) : Prop :=
  (al = None -> forall sg sb, f <> FNoPad B10 sg sb) /\
  (fmt_base f = B2 -> zlen (rq_sep r) <> 1 \/ n_seps r = 0).

Lemma prints_nosep p lc sgn bits v o sep sep' B B' fill w a : o_punct o = false ->
  prints p (request lc sgn bits v o sep B fill w a) -> prints p (request lc sgn bits v o sep' B' fill w a).
Proof.
  intros E. unfold prints.
  set (r := request _ _ _ _ _ sep B _ _ _). set (r' := request _ _ _ _ _ sep' B' _ _ _).
  assert (N : n_seps r = n_seps r').
  { unfold n_seps, r, r', request; cbn [rq_boundary]. rewrite E. reflexivity. }
  assert (EZ : int_zeros r = int_zeros r').
  { unfold int_zeros. rewrite N. reflexivity. }
  assert (EC : int_content r = int_content r').
  { unfold int_content. rewrite EZ. do 2 f_equal. unfold r at 1 2 4, r' at 1 2 4, request; cbn [rq_boundary]. rewrite E.
    rewrite !grouped_none by reflexivity. reflexivity. }
  assert (EW : int_content_width r = int_content_width r').
  { unfold int_content_width. rewrite N, EZ. reflexivity. }
  assert (ET : int_text r = int_text r') by (unfold int_text, int_missing; rewrite EC, EW; reflexivity).
  assert (EX : int_text_width r = int_text_width r') by (unfold int_text_width, int_missing; rewrite EW; reflexivity).
  rewrite ET, EX. exact (fun H => H).
Qed.

Theorem int_print_ok F gs rep f al sgn s v :
  facets_ok F gs rep -> in_int sgn (sbits s) v -> align_ok (align_of al) -> opts_ok (opts_of f) ->
  let r := request_of F gs rep f al sgn s v in
  sep_ok F f r ->
  exists p, int_print F f al sgn s v = Some p /\ prints p r /\ (reserves F f al r -> Forall op_wf (pr_ops p)).
Proof.
  intros [K Hg Hs] Hv Hal [Ho1 Ho2] r Hsep. destruct f as [|b sign sb|b punct pr pd sign sb|n pr pd sign sb punct].
  - destruct al as [a|]; cbn [int_print].
    + destruct (aligned_default_print_ok (if_clz F) (if_case F) (if_cs F) a sgn s v (rq_sep r) (boundary (gs B10) (rep B10)) K Hv Hal) as (p & E & P & W).
      exists p. split; [exact E|]. split; [exact P|]. intros _; exact W.
    + destruct (default_print_ok (if_clz F) (if_case F) (if_cs F) sgn s v (rq_sep r) (boundary (gs B10) (rep B10)) K Hv) as (p & E & P & W).
      exists p. split; [exact E|]. split; [exact P|]. intros _; exact W.
  - destruct al as [a|]; cbn [int_print].
    + destruct (static_ok F b (opts_of (FNoPad b sign sb)) a sgn s v (gs b) (rep b) (cs_encode (if_cs F) (if_sep F b)) K eq_refl Hv Hal Ho1 Ho2 eq_refl)
        as [(p & E & P & W) _].
      exists p. split; [exact E|]. split; [exact P|]. intros _; exact W.
    + destruct (nopad_print_ok (if_clz F) (if_case F) (if_cs F) b sign sb sgn s v (rq_sep r) (boundary (gs b) (rep b)) K Hv) as (p & E & P & W).
      exists p. split; [exact E|]. split; [exact P|]. intros [R _]. apply W. intros ->. exact (R eq_refl sign sb eq_refl).
  - destruct punct; cbn [int_print].
    + destruct (punct_ok F b (opts_of (FStatic b true pr pd sign sb)) (align_of al) sgn s v (gs b) (rep b) (cs_encode (if_cs F) (if_sep F b)) K eq_refl Hv Hal Ho1 Ho2 (if_sep F b) (Hs b)
        (if_grouping F b) eq_refl (Hg b) eq_refl Hsep) as (p & E & P & W).
      exists p. split; [exact E|]. split; [exact P|]. intros [_ R]. apply W. exact R.
    + destruct (static_ok F b (opts_of (FStatic b false pr pd sign sb)) (align_of al) sgn s v (gs b) (rep b) (cs_encode (if_cs F) (if_sep F b)) K eq_refl Hv Hal Ho1 Ho2 eq_refl)
        as [(p & E & P & W) D].
      destruct al as [a|]; [|specialize (D eq_refl)].
      * exists p. split; [exact E|]. split; [exact P|]. intros _; exact W.
      * exists p. split; [cbn [opts_of o_prec o_pad0 o_sign o_showbase] in D; rewrite D; exact E|]. split; [exact P|]. intros _; exact W.
  - cbn [int_print]. set (b := dyn_base n) in *. destruct punct.
    + destruct (punct_ok F b (opts_of (FDyn n pr pd sign sb true)) (align_of al) sgn s v (gs b) (rep b) (cs_encode (if_cs F) (if_sep F b)) K eq_refl Hv Hal Ho1 Ho2 (if_sep F b) (Hs b)
        (if_grouping F b) eq_refl (Hg b) eq_refl Hsep) as (p & E & P & W).
      exists p. split; [exact E|]. split; [exact P|]. intros [_ R]. apply W. exact R.
    + assert (N0 : forall r0, rq_boundary r0 = boundary [] false -> n_seps r0 = 0).
      { intros r0 E0. unfold n_seps. rewrite E0. apply below_none. reflexivity. }
      destruct (punct_ok F b (opts_of (FDyn n pr pd sign sb true)) (align_of al) sgn s v [] false (cs_encode (if_cs F) 44) K eq_refl Hv Hal Ho1 Ho2 44 ltac:(lia)
        grouping_empty eq_refl) as (p & E & P & W).
      { split; [split; [constructor|cbn; lia]|]. split; reflexivity. }
      { reflexivity. }
      { left. reflexivity. }
      exists p. split; [exact E|]. split.
      * apply (prints_nosep _ _ _ _ _ _ (cs_encode (if_cs F) 44) _ (boundary [] false)); [reflexivity|].
        exact P.
      * intros _. apply W. intros _. right. apply N0. reflexivity.
Qed.

(* what is printed when the separator cannot be encoded: the same request with nothing for a separator *)
Definition silent_sep (r : int_request) : int_request :=
  mk_request (rq_signed r) (rq_bits r) (rq_value r) (rq_base r) (rq_precision r) (rq_pad0 r) (rq_sign r) (rq_showbase r) (rq_case r)
    [] (rq_boundary r) (rq_fill r) (rq_width r) (rq_align r).
Theorem int_print_bad_sep F gs rep f al sgn s v :
  facets_ok F gs rep -> in_int sgn (sbits s) v -> align_ok (align_of al) -> opts_ok (opts_of f) ->
  let r := request_of F gs rep f al sgn s v in
  ~ sep_ok F f r ->
  exists p, int_print F f al sgn s v = Some p /\ prints p (silent_sep r) /\ Forall op_wf (pr_ops p).
Proof.
  intros [K Hg Hs] Hv Hal [Ho1 Ho2] r Hsep. unfold sep_ok in Hsep.
  assert (S1 : 0x80 <= if_sep F (fmt_base f)) by lia.
  assert (S2 : cs_validate (if_cs F) (if_sep F (fmt_base f)) = -1) by lia.
  assert (S3 : n_seps r <> 0) by lia.
  assert (P : o_punct (opts_of f) = true).
  { destruct (o_punct (opts_of f)) eqn:E; [reflexivity|exfalso]. apply S3. unfold n_seps, r, request_of, request; cbn [rq_boundary]. rewrite E. apply below_none. reflexivity. }
  assert (G : forall b, b = fmt_base f -> opts_of f = mk_opts (bval b) (o_prec (opts_of f)) (o_pad0 (opts_of f)) (o_sign (opts_of f)) (o_showbase (opts_of f)) true ->
     exists p, punct_print F b (o_prec (opts_of f)) (o_pad0 (opts_of f)) (o_sign (opts_of f)) (o_showbase (opts_of f)) (align_of al) (if_grouping F b) (if_sep F b) sgn s v = Some p /\
       prints p (silent_sep r) /\ Forall op_wf (pr_ops p)).
  { intros b Hb _. rewrite <- Hb in S1, S2.
    assert (EB : o_base (opts_of f) = bval b) by (rewrite Hb; apply fmt_base_ok).
    destruct (punct_bad_ok F b (opts_of f) (align_of al) sgn s v (gs b) (rep b) [] K EB Hv Hal Ho1 Ho2 (if_sep F b) (Hs b)
        (if_grouping F b) eq_refl (Hg b) P S1 S2) as (p & E & Pr & W); [exact (fun H => S3 ltac:(unfold r, request_of; rewrite <- Hb; exact H))|].
    exists p. split; [exact E|]. split; [|exact W]. unfold silent_sep, r, request_of. cbn [rq_signed]. rewrite <- Hb. exact Pr. }
  destruct f as [|b sign sb|b punct pr pd sign sb|n pr pd sign sb punct]; try discriminate P; cbn [opts_of o_punct] in P; subst punct; cbn [int_print fmt_base] in *.
  - exact (G b eq_refl eq_refl).
  - exact (G (dyn_base n) eq_refl eq_refl).
Qed.
