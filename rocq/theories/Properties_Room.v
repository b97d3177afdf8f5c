(* C70: a text that fits in the destination's buffer is printed there completely.  Nothing is
   flushed on the way, and bounded destinations say "truncated" exactly when the text does not fit.
   shows_all, with_facets, facet_for: SyntaxSpec; parses, resolve, items_text: TrSpec. *)
From Coq Require Import Permutation.
From Verif Require Import Base WidthModel DestModel DestProofs UtfForms GroupSpec GroupModel GroupProofs DigitsModel CharsetModel CsetModel IntSpec IntModel IntProofs Properties_Int
  PrintModel PrintSpec RoomProofs PrintProofs CharProofs StringModel StringSpec JoinProofs ToModel ToProofs TrSpec TrModel TrProofs PackSpec PackModel PackProofs
  SyntaxModel SyntaxSpec SyntaxProofs RoomInt RoomModest FloatSpec FloatModel FloatInit FloatProofs FloatFast RoomFloat Properties_Join Properties_Syntax Properties_Float.

(* A destination that only has a buffer of [size] code units.  recycle() and do_write() are any
   functions: whatever they do, they are not used. *)
Definition only_buffer (size : nat) (rec : list Z -> list Z) (wr : list Z -> list Z -> option (list Z)) : dest_ops (list Z) := {|
  d_space := fun u => (size - length u)%nat;
  d_good := fun _ => true;
  d_emit := fun u v => if (length u + length v <=? size)%nat then Some (u ++ v) else None;
  d_recycle := rec;
  d_do_write := wr |}.
Lemma only_buffer_keeps size rec wr : buffer_keeps (only_buffer size rec wr) (fun s t => s = t /\ (length s <= size)%nat).
Proof.
  intros s t u [<- Hs] Hu. cbn [only_buffer d_space d_emit d_good] in *. replace (length s + length u <=? size)%nat with true by (symmetry; apply Nat.leb_le; lia).
  eexists. split; [reflexivity|]. rewrite app_length. repeat split; lia.
Qed.
Lemma only_buffer_prints size rec wr pr t u : prints_text pr t -> (length (u ++ t) <= size)%nat -> pr (list Z) (only_buffer size rec wr) u = Some (u ++ t).
Proof.
  rewrite app_length. intros [_ H] HL. destruct (H _ _ _ (only_buffer_keeps size rec wr) u u) as (s & E & (-> & _) & _); cbn; try lia; [split; [reflexivity|lia]|exact E].
Qed.
Lemma only_buffer_run size rec wr os u : Forall modest os -> frugal os -> (length (u ++ ops_text os) <= size)%nat -> run (only_buffer size rec wr) u os = Some (u ++ ops_text os).
Proof.
  rewrite app_length. intros HM HF HL.
  destruct (room_run (only_buffer size rec wr) (fun s t => s = t /\ (length s <= size)%nat) (fun t => (length t <= size)%nat)) with (os := os) (s := u) (t := u) as (s & E & -> & _).
  - constructor.
    + reflexivity.
    + intros s t v [-> Hs]. cbn [only_buffer d_space]. rewrite app_length. lia.
    + intros s t v H Hv. destruct (only_buffer_keeps size rec wr s t v H Hv) as (s' & A & B & C & _). eauto.
  - split; [reflexivity|lia].
  - exact HM.
  - exact HF.
  - rewrite app_length. lia.
  - exact E.
Qed.

(* any printable argument of the library (arg_ok: C45, C47, C50, C52, C55, ...) *)
Theorem C70_argument : forall M a d p pr, arg_ok M a d -> a no_pre = Some (p, pr) ->
  forall size rec wr u, (length (u ++ d_text d) <= size)%nat -> pr (list Z) (only_buffer size rec wr) u = Some (u ++ d_text d).
Proof.
  intros M a d p pr (_ & _ & H) E size rec wr u HL. destruct (H no_pre (no_pre_ok M d)) as (p' & pr' & E' & HT & _).
  rewrite E in E'. injection E' as <- <-. apply only_buffer_prints; assumption.
Qed.
(* integers with any format, floating-point values with any format or none: whatever they print
   (see C35-C39, C55; for integers also the formats of C40) they reserve no more than that *)
Theorem C70_integer : forall F gs rep f al sgn s v p, facets_ok F gs rep -> in_int sgn (sbits s) v -> align_ok (align_of al) -> opts_ok (opts_of f) ->
  int_print F f al sgn s v = Some p ->
  forall size rec wr u, (length (u ++ ops_text (pr_ops p)) <= size)%nat -> run (only_buffer size rec wr) u (pr_ops p) = Some (u ++ ops_text (pr_ops p)).
Proof.
  intros F gs rep f al sgn s v p HF Hv HA HO E size rec wr u HL. apply only_buffer_run; [exact (modest_int F gs rep f al sgn s v p HF Hv HA HO E)| |exact HL].
  apply tight_frugal. refine (tight_int F f al sgn s v p (fk_cs _ _ _ HF) _ (fk_sep _ _ _ HF) E). destruct al; [exact (proj1 HA)|exact I].
Qed.
Theorem C70_float : forall F gs rep f al x, ffacets_ok F gs rep -> align_ok al ->
  match fl_bits x with BFinite _ mantissa _ _ _ => 0 <= mantissa | _ => True end -> prints_float F gs rep f al x ->
  exists p, punct_double F f al x = Some p /\
    forall size rec wr u, let t := float_text (frequest_of F gs rep f al x) in (length (u ++ t) <= size)%nat -> run (only_buffer size rec wr) u (pr_ops p) = Some (u ++ t).
Proof.
  intros F gs rep f al x [K _ H1 H2 H3] [HA _] HX (p & E & T & _ & _ & HWf). exists p. split; [exact E|]. intros size rec wr u t HL. unfold t in *. rewrite <- T in *.
  apply only_buffer_run; [apply wf_modest; exact HWf| |exact HL]. exact (frugal_punct F f al x p K H1 H2 H3 HA HX E).
Qed.
Theorem C70_default_float : forall lc x, match fl_bits x with BFinite _ _ _ m e => decimal_ok m e | _ => True end ->
  exists os, fast_ops lc (fl_negative x) (fl_bits x) = Some os /\
    forall size rec wr u, let t := (if fl_negative x then [45] else []) ++ float_body (default_style lc) (value_of false (fl_bits x)) in (length (u ++ t) <= size)%nat -> run (only_buffer size rec wr) u os = Some (u ++ t).
Proof.
  intros lc x Hx. destruct (fast_default_ok lc x Hx) as (q & E & T & _ & _ & HWf). unfold fast_print in E.
  destruct (fast_ops lc (fl_negative x) (fl_bits x)) as [os|] eqn:EO; [|discriminate]. cbn [obind] in E. injection E as <-. cbn [pr_ops] in *.
  exists os. split; [reflexivity|]. intros size rec wr u HL. rewrite <- T in *. apply only_buffer_run; [apply wf_modest; exact HWf|exact (frugal_fast _ _ _ _ EO)|exact HL].
Qed.

(* strf::to(buf, size).with(...)(args...): the C string holds all of the text, exactly if there is
   room for it and the terminator; what follows in the buffer is as it was *)
Theorem C70_cstr : forall get_default constrainable M buf cat qs cat' o (eol : bool) order args fs ps ds, (1 <= length buf)%nat ->
  chain cat (to_creator (c_cstr buf)) qs = Some (cat', o) -> separate_args args = Some (fs, ps) -> (forall l, Permutation l (order l)) ->
  shows_all get_default constrainable M (flat_map leaves (flat_map with_facets qs ++ fs)) ps ds ->
  let text := concat (map d_text ds) ++ (if eol then [10] else []) in
  ((length text < length buf)%nat -> sy_print get_default constrainable o eol order args = Some (Some (text ++ 0 :: skipn (S (length text)) buf, (true, length text), false))) /\
  ((length buf <= length text)%nat -> exists r, sy_print get_default constrainable o eol order args = Some r /\ forall b p truncated, r = Some (b, p, truncated) -> truncated = true).
Proof.
  intros df cn M buf cat qs cat' o eol order args fs ps ds HB HC HS HO HD text.
  destruct (sy_print_ok df cn M (c_cstr buf) _ cat qs cat' o eol order args fs ps ds (cstr_keeps buf HB) HC HS HO HD) as (r & E & H). change (eol_text eol) with (if eol then [10] else []) in H. fold text in H.
  destruct r as [[[b [i k]] tr]|]; cbn [cstr_result] in H; [|split; [lia|intros _; eexists; split; [exact E|discriminate]]].
  destruct H as (H1 & H2 & H3 & H4 & H5 & H6 & H7). split; intros HL.
  - destruct H6 as [_ H6]. specialize (H6 HL). subst tr i. destruct (H7 eq_refl) as [-> ->]. exact E.
  - eexists. split; [exact E|]. intros b' p' tr' [= <- <- <-]. destruct tr; [reflexivity|]. destruct H6 as [H6 _]. specialize (H6 eq_refl). lia.
Qed.
(* strf::to(range), strf::to(char_array_destination) *)
Theorem C70_array : forall get_default constrainable M buf cat qs cat' o (eol : bool) order args fs ps ds,
  chain cat (to_creator (c_array buf)) qs = Some (cat', o) -> separate_args args = Some (fs, ps) -> (forall l, Permutation l (order l)) ->
  shows_all get_default constrainable M (flat_map leaves (flat_map with_facets qs ++ fs)) ps ds ->
  let text := concat (map d_text ds) ++ (if eol then [10] else []) in
  ((length text <= length buf)%nat -> sy_print get_default constrainable o eol order args = Some (text ++ skipn (length text) buf, Some (true, length text), false)) /\
  ((length buf < length text)%nat -> (length text <= 64)%nat -> exists b p, sy_print get_default constrainable o eol order args = Some (b, p, true)).
Proof.
  intros df cn M buf cat qs cat' o eol order args fs ps ds HC HS HO HD text.
  destruct (sy_print_ok df cn M (c_array buf) _ cat qs cat' o eol order args fs ps ds (array_keeps buf) HC HS HO HD) as (r & E & H). change (eol_text eol) with (if eol then [10] else []) in H. fold text in H.
  destruct r as [[b [[[|] k]|]] tr]; cbn [array_result] in H; try (split; lia).
  destruct H as (H1 & H2 & H3 & H4 & H5). split; intros HL.
  - destruct H4 as [_ H4]. specialize (H4 HL). subst tr. destruct (H5 eq_refl) as [-> ->]. exact E.
  - intros _. destruct tr; [eauto|]. destruct H4 as [H4 _]. specialize (H4 eq_refl). lia.
Qed.
(* .tr, .trline *)
Theorem C70_tr_cstr : forall get_default constrainable M charset_c void_tag (cset_of : Z -> cset) buf cat qs cat' o (eol : bool) args fs str tps ps ds, (1 <= length buf)%nat ->
  chain cat (to_creator (c_cstr buf)) qs = Some (cat', o) -> separate_tr_args args = Some (fs, str, ps) ->
  let ls := flat_map leaves (flat_map with_facets qs ++ fs) in
  shows_all get_default constrainable M ls ps ds -> parses 0 str tps -> zlen ps < 2 ^ 59 ->
  let b := cset_of (facet_for get_default ls charset_c void_tag) in
  let text := items_text b (map d_text ds) (resolve (zlen ps) 0 tps) ++ (if eol then [10] else []) in
  (last_reserve qs = CalcSize -> False) -> (length text < length buf)%nat ->
  sy_tr get_default constrainable charset_c void_tag cset_of o eol args = Some (Some (text ++ 0 :: skipn (S (length text)) buf, (true, length text), false)).
Proof.
  intros df cn M cc vt csof buf cat qs cat' o eol args fs str tps ps ds HB HC HS ls HD HP HZ b text HR HL.
  destruct (sy_tr_ok df cn M cc vt csof (c_cstr buf) _ cat qs cat' o eol args fs str tps ps ds (cstr_keeps buf HB) HC HS HD HP HZ) as (r & E & H); [intros C; destruct (HR C)|].
  change (eol_text eol) with (if eol then [10] else []) in H. fold ls b text in H.
  destruct r as [[[b' [i k]] tr]|]; cbn [cstr_result] in H; [|lia]. destruct H as (H1 & H2 & H3 & H4 & H5 & [_ H6] & H7). specialize (H6 HL). subst tr i. destruct (H7 eq_refl) as [-> ->]. exact E.
Qed.

(* 1,234,567: nine units.  A ten unit buffer holds it as a C string, a nine unit one as an array. *)
Example C70_ex : let df := fun c : Z => 0 in let cn := fun c : Z => true in let id := fun l : list (nat * arg) => l in
  let call {Res} (c : creator Res) := match chain Rvalue (to_creator c) [QWith [Facet 10 1]] with Some (_, o) => sy_print df cn o false id [APrintable (Plain (int_plain df 1234567))] | None => None end in
  let text := [49;44;50;51;52;44;53;54;55] in
  call (c_cstr (repeat 7 11)) = Some (Some (text ++ [0; 7], (true, 9%nat), false)) /\ call (c_cstr (repeat 7 10)) = Some (Some (text ++ [0], (true, 9%nat), false)) /\
  (exists b p, call (c_cstr (repeat 7 9)) = Some (Some (b, p, true))) /\
  call (c_array (repeat 7 9)) = Some (text, Some (true, 9%nat), false) /\ (exists b p, call (c_array (repeat 7 8)) = Some (b, p, true)).
Proof. cbn zeta. repeat split; try (do 2 eexists); vm_compute; reflexivity. Qed.
(* the hypotheses of C70_integer and C70_argument *)
Example C70_integer_ex : exists p, int_print F8 (FStatic B10 true 0 0 NegativeOnly false) None true S4 1234567 = Some p /\ ops_text (pr_ops p) = [49;44;50;51;52;44;53;54;55] /\
  forall rec wr, run (only_buffer 9 rec wr) [] (pr_ops p) = Some [49;44;50;51;52;44;53;54;55].
Proof.
  eexists. split; [vm_compute; reflexivity|]. split; [vm_compute; reflexivity|]. intros rec wr. vm_compute. reflexivity.
Qed.
(* of C70_float and C70_default_float: a buffer of exactly the text, and one of a unit less *)
Example C70_float_ex : exists p, punct_double FL8 (mk_ffmt 2 0 NScientific NegativeOnly false false) (mk_align 32 (11 * 65536) ARight) (dec true 1234 27) = Some p /\ run (only_buffer 11 (fun u => u) (fun u _ => None)) [] (pr_ops p) = Some [32; 32; 45; 49; 46; 50; 51; 101; 43; 51; 48] /\ run (only_buffer 10 (fun u => u) (fun u _ => None)) [] (pr_ops p) = None.
Proof. eexists. split; [vm_compute; reflexivity|]. split; vm_compute; reflexivity. Qed.
Example C70_default_float_ex : exists os, fast_ops LLower true (BFinite false 0 0 1234 27) = Some os /\ run (only_buffer 10 (fun u => u) (fun u _ => None)) [] os = Some [45; 49; 46; 50; 51; 52; 101; 43; 51; 48] /\ run (only_buffer 9 (fun u => u) (fun u _ => None)) [] os = None.
Proof. eexists. split; [vm_compute; reflexivity|]. split; vm_compute; reflexivity. Qed.
Print Assumptions C70_argument.
Print Assumptions C70_integer.
Print Assumptions C70_float.
Print Assumptions C70_default_float.
Print Assumptions C70_cstr.
Print Assumptions C70_array.
Print Assumptions C70_tr_cstr.
