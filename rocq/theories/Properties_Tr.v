(* C51, C52: tr-strings.  parses, resolve, items_text, errors: TrSpec.  arg_ok: see Properties_Print. *)
From Verif Require Import Base WidthModel WidthProofs DestModel DestProofs UtfSpec UtfForms UtfTheorems
  CharsetModel SbcsModel CsetModel CsetProofs Properties_Pivot WCalcModel WCalcProofs IntSpec IntModel
  PrintModel StringModel ToModel RangeModel TrModel PrintSpec StringSpec TrSpec PrintProofs SegProofs StringProofs CharProofs ToProofs TrProofs Properties_Print Properties_Join.

(* ------------------------------------------------------------------ *)
(* C51 *)
(* every string is a tr-string, with a single reading *)
Theorem C51_every_string : forall str, exists ps, parses 0 str ps /\ (forall ps', parses 0 str ps' -> ps' = ps).
Proof.
  intros str. destruct (proj1 (tr_exists (S (length str)) str ltac:(lia)) 0) as [ps H]. exists ps. split; [exact H|exact (proj1 parses_unique 0 str ps H)].
Qed.
(* the printers' texts in place; the positions of the invalid references are reported, in order *)
Theorem C51_written : forall b printers ts str ps, Forall2 prints_text printers ts -> zlen printers < 2 ^ 59 -> parses 0 str ps ->
  let its := resolve (zlen printers) 0 ps in
  forall S (ops : dest_ops S) R, full_laws ops R -> forall s u, R s u ->
  exists s', p_tr_errors b printers str ops s = Some (s', errors its) /\ R s' (u ++ items_text b ts its).
Proof.
  intros b prs ts str ps HP HN HS its S ops R L s u HR. pose proof (zlen_nonneg prs). destruct (tr_write_ok b prs ts HP HN S ops R (fun _ => True) (or_introl (conj L (fun _ => I)))) as [HW _].
  destruct (HW 0 str ps HS (Datatypes.S (length str)) 0 s u ltac:(lia) ltac:(lia) HR I) as (s' & E & H'). rewrite Z.min_l in E by lia.
  exists s'. split; [exact E|exact H'].
Qed.
Lemma each_made M z args ds : Forall2 (arg_ok M) args ds -> match z with None => True | Some z => 0 <= z < 2 ^ 64 end ->
  exists pres prs, make_each args (mk_pre z None) = Some (pres, prs) /\ Forall2 (fun d q => added (mk_pre z None) d q) ds pres /\ Forall2 prints_text prs (map d_text ds) /\ zlen prs = zlen args.
Proof.
  intros HA Hz. destruct (make_each_ok M (mk_pre z None) args ds HA) as (pres & prs & E & F1 & F2).
  { apply Forall_forall. intros d _. split; [exact Hz|exact I]. }
  exists pres, prs. split; [exact E|]. split; [exact F1|]. split; [exact F2|]. rewrite (forall2_zlen _ _ _ F2), zlen_map, (forall2_zlen _ _ _ HA). reflexivity.
Qed.
Lemma print_tr_ok M eol b str ps args ds : parses 0 str ps -> Forall2 (arg_ok M) args ds -> zlen args < 2 ^ 59 ->
  prints_text (print_tr eol b str args) (items_text b (map d_text ds) (resolve (zlen args) 0 ps) ++ eol_text eol).
Proof.
  intros HS HA HN. destruct (each_made M None args ds HA I) as (pres & prs & E & _ & F2 & EP). rewrite <- EP.
  assert (P : prints_text (p_seq (p_tr b prs str) (p_eol eol)) (items_text b (map d_text ds) (resolve (zlen prs) 0 ps) ++ eol_text eol)).
  { apply prints_seq; [apply p_tr_ok; [exact F2|lia|exact HS]|apply p_eol_ok]. }
  apply prints_by. intros St ops R ok L s u HR K. unfold print_tr. change no_pre with (mk_pre None None). rewrite E. cbn [obind snd]. exact (prints_use _ _ P St ops R ok L s u HR K).
Qed.
(* strf::to_string.tr(str, args...), .tr with a line end, and strf::append(str0).tr(...) *)
Theorem C51_to_string : forall M (eol : bool) b str ps args ds, parses 0 str ps -> Forall2 (arg_ok M) args ds -> zlen args < 2 ^ 59 ->
  let text := items_text b (map d_text ds) (resolve (zlen args) 0 ps) ++ (if eol then [10] else []) in
  to_string_tr eol b str args = Some text /\ (forall str0, append_tr str0 eol b str args = Some (str0 ++ text)).
Proof.
  intros M eol b str ps args ds HS HA HN text. pose proof (print_tr_ok M eol b str ps args ds HS HA HN) as HP. split.
  - unfold to_string_tr. destruct (proj1 HP smak smak_ops smak_R smak_laws smak_init []) as (s & E & HR); [repeat split; cbn; lia|]. rewrite E. cbn [obind]. f_equal. apply (smak_finish_ok _ _ HR).
  - intros str0. unfold append_tr. destruct (proj1 HP sapp sapp_ops (sapp_R str0) (sapp_laws str0) (sapp_init str0) []) as (s & E & HR); [repeat split; cbn; lia|].
    rewrite E. cbn [obind]. f_equal. exact (sapp_finish_ok _ _ _ HR).
Qed.
(* a strf::tr(str, args...) among other arguments: see C52_measured *)
Example C51_ex : let args := [ascii [97]; ascii [98]] in
  let str := [120; 123; 125; 123; 123; 49; 123; 45; 32; 125; 123; 48; 58; 125; 123; 57; 125; 123; 97; 125; 123] in (* x{}{{1{- }{0:}{9}{a}{ *)
  let ps := [Text [120]; Next 1; Text []; Text [123; 49]; Text []; Index 10 0; Text []; Index 14 9; Text []; Next 17; Text []; Next 20] in
  parses 0 str ps /\ errors (resolve 2 0 ps) = [14; 20] /\
  Forall2 (arg_ok None) args [string_desc FastWidth None 65536 [97]; string_desc FastWidth None 65536 [98]] /\
  to_string_tr false (Utf U8) str args = Some [120; 97; 123; 49; 97; 0xEF; 0xBF; 0xBD; 98; 0xEF; 0xBF; 0xBD].
Proof.
  cbv zeta. split; [|split; [reflexivity|split; [|vm_compute; reflexivity]]].
  2: { repeat (apply Forall2_cons; [apply ascii_ok; repeat constructor; lia|]). apply Forall2_nil. }
  apply (parses_field 0 [120] [125; 123; 123; 49; 123; 45; 32; 125; 123; 48; 58; 125; 123; 57; 125; 123; 97; 125; 123]); [intros [H|[]]; discriminate|].
  apply (field_next 2). apply (parses_field 3 []); [intros []|].
  apply (field_escape 4 [49]); [intros [H|[]]; discriminate|]. apply (field_comment 7 [32]); [intros [H|[]]; discriminate|].
  apply (parses_field 10 []); [intros []|]. apply (field_index 11 [48] [58]); [discriminate|repeat constructor; unfold is_digit; lia|intros [H|[]]; discriminate|unfold is_digit; lia|].
  apply (parses_field 14 []); [intros []|]. apply (field_index 15 [57] []); [discriminate|repeat constructor; unfold is_digit; lia|intros []|exact I|].
  apply (parses_field 17 []); [intros []|]. apply (field_other 18 97 []); [discriminate..|unfold is_digit; lia|intros []|].
  apply (parses_field 20 []); [intros []|]. apply field_end.
Qed.

(* ------------------------------------------------------------------ *)
(* C52 *)
(* the size computed for reserve_calc is that of the text *)
Theorem C52_size : forall b str ps ts, parses 0 str ps -> zlen ts < 2 ^ 59 ->
  let text := items_text b ts (resolve (zlen ts) 0 ps) in zlen text < 2 ^ 63 ->
  tr_string_size (map zlen ts) (zlen (replacement_text b)) str = Some (zlen text).
Proof.
  intros b str ps ts HS HN text HT. pose proof (zlen_nonneg ts) as HN0. unfold tr_string_size. replace (zlen (replacement_text b)) with (replacement_size b) by (destruct (replacement_ok b) as (_ & _ & E); congruence).
  pose proof (tr_size_premeasure (map zlen ts) (replacement_size b) (S (length str)) false str 0 0 ltac:(lia)) as E0. rewrite zlen_map in E0. rewrite Z.min_l in E0 by lia. rewrite E0.
  assert (Forall2 (fun s t => s = zlen t) (map zlen ts) ts) as HSz by (clear; induction ts; cbn; constructor; auto).
  destruct (tr_premeasure_ok _ (ps_arg (map zlen ts) (replacement_size b)) ps_string (zlen ts) ltac:(lia) (resolve (zlen ts) 0 ps) (size_inv b ts) (fun _ => False)) as [HQ _].
  { intros done k a t Hk Hpf HI. pose proof (size_arg_step b (map zlen ts) ts _ HSz HT done k a t Hk) as HQ. rewrite zlen_map in HQ. destruct (HQ Hpf HI) as (t' & E1 & HI').
    exists t', false. split; [exact E1|]. split; [exact HI'|discriminate]. }
  { intros done s t Hpf HI. destruct (size_string_step b ts _ HT done s t Hpf HI) as (t' & E1 & HI').
    exists t', false. split; [exact E1|]. split; [exact HI'|discriminate]. }
  destruct (HQ 0 str ps HS (S (length str)) 0 [] 0 ltac:(lia) ltac:(lia) (is_prefix_refl _)) as (t & E1 & [I1|(dn & _ & _ & [])]); [reflexivity|].
  rewrite E1. f_equal. exact I1.
Qed.
(* the two size parsers, tr_string_size and tr_do_premeasurements, agree on every string, sizes and
   limits: same result, or both overflow *)
Theorem C52_two_parsers : forall sizes rsize str,
  tr_string_size sizes rsize str = tr_premeasure Z (ps_arg sizes rsize) ps_string (zlen sizes) (S (length str)) false str 0 0.
Proof.
  intros sizes rsize str. unfold tr_string_size. rewrite <- tr_size_premeasure by lia. f_equal. pose proof (zlen_nonneg sizes). lia.
Qed.
Lemma tr_calc_ok M (eol : bool) b str ps args ds : parses 0 str ps -> Forall2 (arg_ok M) args ds -> zlen args < 2 ^ 59 ->
  let text := items_text b (map d_text ds) (resolve (zlen args) 0 ps) ++ eol_text eol in
  zlen text < 2 ^ 63 -> Forall (fun d => zlen (d_text d) < 2 ^ 63) ds ->
  exists pr, tr_calc_and_print eol b str args = Some (zlen text, pr) /\ prints_text pr text.
Proof.
  intros HS HA HN text HT HZ. destruct (each_made M (Some 0) args ds HA ltac:(cbn; lia)) as (pres & prs & E & F1 & F2 & EP).
  unfold tr_calc_and_print. rewrite E. cbn [obind fst snd].
  assert (map accumulated_ssize pres = map zlen (map d_text ds)) as ->.
  { assert (Forall2 (fun s t => s = zlen t) (map accumulated_ssize pres) (map d_text ds)) as H by (apply (each_sizes (mk_pre (Some 0) None)); [exact F1|exact HZ|discriminate]).
    clear - H. induction H; cbn; congruence. }
  assert (zlen (map d_text ds) = zlen args) as EZ by (rewrite zlen_map, (forall2_zlen _ _ _ HA); reflexivity).
  replace (replacement_size b) with (zlen (replacement_text b)) by (destruct (replacement_ok b) as (_ & _ & E'); congruence).
  unfold text in HT. rewrite zlen_app in HT. pose proof (zlen_nonneg (eol_text eol)). pose proof (zlen_nonneg (items_text b (map d_text ds) (resolve (zlen args) 0 ps))).
  rewrite (C52_size b str ps (map d_text ds) HS) by (rewrite EZ; lia). rewrite EZ. cbn [obind].
  replace (if eol then 1 else 0) with (zlen (eol_text eol)) by (destruct eol; reflexivity). rewrite <- zlen_app in *. fold text in HT |- *.
  rewrite chk64 by (pose proof (zlen_nonneg text); lia). cbn [obind]. eexists. split; [f_equal; f_equal; apply to_u_id; pose proof (zlen_nonneg text); lia|].
  unfold text. rewrite <- EP. apply prints_seq; [apply p_tr_ok; [exact F2|lia|exact HS]|apply p_eol_ok].
Qed.
(* what is reserved for append(...).reserve_calc().tr(...) is the length of what is appended *)
Theorem C52_reserved : forall M (eol : bool) b str ps args ds, parses 0 str ps -> Forall2 (arg_ok M) args ds -> zlen args < 2 ^ 59 ->
  let text := items_text b (map d_text ds) (resolve (zlen args) 0 ps) ++ (if eol then [10] else []) in
  zlen text < 2 ^ 63 -> Forall (fun d => zlen (d_text d) < 2 ^ 63) ds ->
  option_map fst (tr_calc_and_print eol b str args) = Some (zlen text) /\
  (forall str0, append_tr_calc str0 eol b str args = Some (str0 ++ text)).
Proof.
  intros M eol b str ps args ds HS HA HN text HT HZ. destruct (tr_calc_ok M eol b str ps args ds HS HA HN HT HZ) as (pr & E & HP).
  unfold append_tr_calc. rewrite E. cbn [obind option_map fst snd]. split; [reflexivity|]. intros str0.
  destruct (proj1 HP sapp sapp_ops (sapp_R str0) (sapp_laws str0) (sapp_init str0) []) as (s & E2 & HR); [repeat split; cbn; lia|].
  rewrite E2. cbn [obind]. f_equal. exact (sapp_finish_ok _ _ _ HR).
Qed.
(* strf::tr(str, args...) as an argument: printed text, measured size and width.  A width is
   measured up to M (none: M = None); the arguments of the tr-string must then be measurable
   whole, and with the fast code point counter the text between the references well-formed *)
Theorem C52_measured : forall M w b str ps args ds xs, is_cset b -> unit_text b str -> parses 0 str ps ->
  Forall2 (arg_ok (match M with Some _ => Some u_max | None => None end)) args ds -> zlen args < 2 ^ 59 ->
  let its := resolve (zlen args) 0 ps in let text := items_text b (map d_text ds) its in
  zlen text < 2 ^ 63 -> Forall (fun d => zlen (d_text d) < 2 ^ 63) ds ->
  Forall2 (item_width w b (map d_width ds)) its xs ->
  (M <> None -> Forall (fun d => d_peak d <= u_max) ds /\
    Forall (fun i => match i with Lit s => countable w b s | _ => True end) its) ->
  arg_ok M (tr_arg w b str args) (mk_desc text (sumZ xs) (sumZ xs) (sumZ xs)).
Proof. exact tr_arg_ok. Qed.
Theorem C52_widths_exist : forall w b str ps n ws, is_cset b -> unit_text b str -> parses 0 str ps ->
  exists xs, Forall2 (item_width w b ws) (resolve n 0 ps) xs.
Proof.
  intros w b str ps n ws HB HU HS.
  assert (lits (unit_text b) (resolve n 0 ps)) as HL.
  { apply (resolve_lits (fun c => 0 <= c < 2 ^ unit_bits b)). apply (proj1 (parses_forall _ (brace_unit b)) 0 str ps HS HU). }
  unfold lits in HL. induction HL as [|i is_ Hi HF (xs & IH)]; [exists []; constructor|].
  assert (exists x, item_width w b ws i x) as [x Hx].
  { destruct i as [s|k|a]; cbn [item_width]; [|eauto..]. destruct (segmented_exists b s HB Hi) as [l Hl]. eauto. }
  exists (x :: xs). constructor; assumption.
Qed.
Example C52_ex : let args := [ascii [97; 98; 99]; bool_arg LLower true] in
  let str := [120; 123; 125; 0xE6; 0xBC; 0xA2; 123; 55; 125; 123; 125] in (* x{}U+6F22{7}{} *)
  let ps := [Text [120]; Next 1; Text [0xE6; 0xBC; 0xA2]; Index 6 7; Text []; Next 9] in
  parses 0 str ps /\
  Forall2 (item_width StdWidth (Utf U8) [3 * 65536; 4 * 65536]) (resolve 2 0 ps) [65536; 3 * 65536; 2 * 65536; 65536; 0; 4 * 65536] /\
  Forall2 (arg_ok (Some u_max)) args [string_desc FastWidth None (3 * 65536) [97; 98; 99]; whole (bool_text LLower true) (65536 * 4)] /\
  option_map fst (tr_arg StdWidth (Utf U8) str args (mk_pre (Some 5) (Some (u_max, 65536)))) = Some (mk_pre (Some 19) (Some (u_max, 12 * 65536))) /\
  option_map fst (tr_arg StdWidth (Utf U8) str args (mk_pre None (Some (65536 * 6, 65536)))) = Some (mk_pre None (Some (65536 * 6, 6 * 65536))).
Proof.
  cbv zeta. split; [|split; [|split]].
  - apply (parses_field 0 [120]); [intros [H|[]]; discriminate|]. apply (field_next 2).
    apply (parses_field 3 [0xE6; 0xBC; 0xA2]); [intros [H|[H|[H|[]]]]; discriminate|].
    apply (field_index 7 [55] []); [discriminate|repeat constructor; unfold is_digit; lia|intros []|exact I|]. apply (parses_field 9 []); [intros []|]. apply (field_next 10), parses_nil.
  - cbn [resolve refer Z.ltb Z.compare Z.to_nat Pos.compare Pos.compare_cont].
    assert (forall c, valid_cp false c -> segmented (Utf U8) (enc_of U8 c) [(c, enc_of U8 c)]) as HSeg.
    { intros c Hc. exists [Good c]. split; [|cbn; reflexivity]. pose proof (items_encode U8 false [c] ltac:(discriminate) ltac:(constructor; [exact Hc|constructor])) as H. unfold encode in H. cbn [flat_map] in H. rewrite app_nil_r in H. exact H. }
    repeat (apply Forall2_cons; [|]); try apply Forall2_nil; cbn [item_width nth]; try reflexivity.
    + eexists. split; [apply (HSeg 120); (split; [lia|right; reflexivity])|vm_compute; reflexivity].
    + eexists. split; [apply (HSeg 0x6F22); (split; [lia|right; reflexivity])|vm_compute; reflexivity].
    + exists []. split; [exists []; split; [constructor|reflexivity]|vm_compute; reflexivity].
  - repeat (apply Forall2_cons; [apply bool_arg_ok || (apply ascii_ok; repeat constructor; lia)|]). apply Forall2_nil.
  - split; vm_compute; reflexivity.
Qed.
Print Assumptions C51_every_string.
Print Assumptions C51_written.
Print Assumptions C51_to_string.
Print Assumptions C52_size.
Print Assumptions C52_two_parsers.
Print Assumptions C52_reserved.
Print Assumptions C52_measured.
Print Assumptions C52_widths_exist.
