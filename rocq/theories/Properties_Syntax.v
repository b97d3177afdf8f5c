(* C64: what to(...).with(...).reserve(...)(args...) and .line, .tr, .trline print, and where.
   shows, facet_for, with_facets, last_reserve, creator_keeps: SyntaxSpec; parses, resolve, items_text: TrSpec. *)
From Coq Require Import Permutation.
From Verif Require Import Base WidthModel DestModel DestProofs UtfForms GroupSpec GroupModel GroupProofs DigitsModel CharsetModel CsetModel IntSpec IntModel IntProofs Properties_Int
  PrintModel PrintSpec PrintProofs CharProofs StringModel JoinProofs ToModel ToProofs TrSpec TrModel TrProofs PackSpec PackModel PackProofs SyntaxModel SyntaxSpec SyntaxProofs.

(* Any chain of calls that compiles: the destination is the one it started with, the facets of
   all the with(...) are kept in order, and the last call about reserving wins *)
Theorem C64_chain : forall Res cat (c : creator Res) qs cat' o, chain cat (to_creator c) qs = Some (cat', o) ->
  sy_creator o = c /\ sy_facets o = flat_map with_facets qs /\ sy_policy o = last_reserve qs.
Proof. intros Res cat c qs cat' o H. exact (chain_ok qs cat (to_creator c) cat' o H). Qed.
Example C64_chain_ex : exists o, chain Rvalue (to_creator c_to_string) [QWith [Facet 1 7]; QReserve (-5); QWith [Facet 2 8; Facet 1 9]; QReserveCalc] = Some (Rvalue, o) /\
  sy_facets o = [Facet 1 7; Facet 2 8; Facet 1 9] /\ sy_policy o = CalcSize.
Proof. eexists. split; [reflexivity|]. split; reflexivity. Qed.
Print Assumptions C64_chain.

(* Which chains compile on a temporary, as to(...) returns *)
Definition call_allowed {Res} (c : creator Res) (before : list chain_call) (q : chain_call) : Prop :=
  match q with
  | QWith [] => True
  | QWith (_ :: _) => forall f e, ~ In (Constrained f e) (flat_map with_facets before)
  | QNoReserve => True
  | QReserveCalc => cr_sized c <> None
  | QReserve _ => cr_sized c <> None /\ forall n, last_reserve before <> GivenSpace n
  | QReserveGivenSpace _ => exists n, last_reserve before = GivenSpace n
  end.
Lemma step_allowed {Res} (c : creator Res) before o q : sy_creator o = c -> sy_facets o = flat_map with_facets before -> sy_policy o = last_reserve before ->
  ((exists o', chain_step Rvalue o q = Some (Rvalue, o')) <-> call_allowed c before q) /\ (forall r, chain_step Rvalue o q = Some r -> fst r = Rvalue).
Proof.
  intros <- Ef Ep. destruct o as [c p l]. cbn in *. subst l p. unfold call_allowed. destruct q as [[|x xs]| | |n|n]; cbn [chain_step sy_creator sy_facets sy_policy]; unfold is_sized.
  - split; [split; eauto|intros r [= <-]; reflexivity].
  - unfold merge_1st. destruct (elements (flat_map with_facets before)) as [r|] eqn:E; cbn [obind].
    + split; [split; [|eauto]|intros ? [= <-]; reflexivity]. intros _ f e HI. assert (exists x, elements (flat_map with_facets before) = Some x) as [x' HX] by eauto. clear E.
      revert HI x' HX. generalize (flat_map with_facets before). induction l as [|a l IH]; [intros []|]. intros HI x' HX. cbn [elements] in HX. destruct HI as [->|HI]; [discriminate|].
      destruct (element a); [|discriminate]. cbn [obind] in HX. destruct (elements l) eqn:EL; [|discriminate]. exact (IH HI _ eq_refl).
    + split; [|discriminate]. split; [intros [? ?]; discriminate|]. intros H. exfalso. rewrite elements_some in E; [discriminate|]. apply Forall_forall. intros y HI f e ->. exact (H f e HI).
  - destruct (last_reserve before); (split; [split; eauto|intros r [= <-]; reflexivity]).
  - destruct (cr_sized c); [|split; [split; [let H := fresh in intros [? H]; discriminate H|congruence]|discriminate]].
    destruct (last_reserve before); (split; [split; [intros _; discriminate|eauto]|intros r [= <-]; reflexivity]).
  - destruct (cr_sized c); [|split; [split; [let H := fresh in intros [? H]; discriminate H|intros [? _]; congruence]|discriminate]].
    destruct (last_reserve before) eqn:E; (split; [split|]); try (intros ? [= <-]; reflexivity); try (intros; split; discriminate); try solve [eauto]; try discriminate.
    + let H := fresh in intros [? H]; discriminate H.
    + intros [_ H]. exfalso. exact (H _ eq_refl).
  - destruct (last_reserve before); (split; [split|]); try (intros ? [= <-]; reflexivity); try (let H := fresh in intros [? H]; discriminate H); eauto; discriminate.
Qed.
Lemma last_reserve_app a b : last_reserve (a ++ b) = fold_left (fun x q => match reserve_of q with Some y => y | None => x end) b (last_reserve a).
Proof. apply fold_left_app. Qed.
Theorem C64_compiles : forall Res (c : creator Res) qs,
  (exists r, chain Rvalue (to_creator c) qs = Some r) <-> (forall before q after, qs = before ++ q :: after -> call_allowed c before q).
Proof.
  intros Res c qs.
  assert (G : forall qs done o, sy_creator o = c -> sy_facets o = flat_map with_facets done -> sy_policy o = last_reserve done ->
    (exists r, chain Rvalue o qs = Some r) <-> (forall before q after, qs = before ++ q :: after -> call_allowed c (done ++ before) q)).
  { clear qs. induction qs as [|q qs IH]; intros done o Ec Ef Ep; cbn [chain].
    - split; [intros _ [|] ? ? [=]|eauto].
    - destruct (step_allowed c done o q Ec Ef Ep) as [H1 H2]. destruct (chain_step Rvalue o q) as [[cat1 o1]|] eqn:E; cbn [obind fst snd].
      + specialize (H2 _ eq_refl). cbn in H2. subst cat1.
        destruct (chain_ok [q] Rvalue o Rvalue o1) as (A & B & C); [cbn [chain]; rewrite E; reflexivity|]. cbn [flat_map] in B. rewrite app_nil_r in B.
        rewrite (IH (done ++ [q]) o1).
        * split.
          -- intros H before q' after EQ. destruct before as [|b0 before].
             ++ cbn in EQ. injection EQ as <- <-. rewrite app_nil_r. apply H1. eauto.
             ++ cbn in EQ. injection EQ as <- EQ. specialize (H before q' after EQ). rewrite <- app_assoc in H. exact H.
          -- intros H before q' after EQ. rewrite <- app_assoc. apply (H (q :: before) q' after). cbn. congruence.
        * congruence.
        * rewrite B, Ef, flat_map_app. cbn. rewrite app_nil_r. reflexivity.
        * rewrite last_reserve_app, <- Ep. exact C.
      + split; [intros [? ?]; discriminate|]. intros H. specialize (H [] q qs eq_refl). rewrite app_nil_r in H. apply H1 in H. destruct H as [? H]. discriminate. }
  exact (G qs [] (to_creator c) eq_refl eq_refl eq_refl).
Qed.
(* on a named object with() and, after a reservation, no_reserve() do not compile; nor does
   reserve(n) after reserve(n) *)
Example C64_compiles_ex : (exists r, chain Rvalue (to_creator c_to_string) [QReserve 5; QWith []; QNoReserve; QReserve 6] = Some r) /\
  chain Rvalue (to_creator c_to_string) [QReserve 5; QReserve 6] = None /\ chain Rvalue (to_creator (c_cstr [1;2;3])) [QReserve 5] = None /\
  chain Lvalue (to_creator c_to_string) [QWith []] = None /\ chain ConstLvalue (mk_syntax c_to_string CalcSize []) [QNoReserve] = None.
Proof. split; [eexists; reflexivity|]. repeat split. Qed.
Print Assumptions C64_compiles.

(* How the arguments of a call are taken: facets first, then printables; nothing else compiles *)
Theorem C64_arguments : forall args fs ps, separate_args args = Some (fs, ps) <->
  exists lvs, length lvs = length fs /\ args = map (fun x => AFpe (fst x) (snd x)) (combine lvs fs) ++ map APrintable ps.
Proof. exact separate_ok. Qed.
(* with tr and trline: facets, the tr-string, then printables; a pack or a constrained facet must
   not be a named object *)
Theorem C64_tr_arguments : forall args fs str ps, separate_tr_args args = Some (fs, str, ps) <->
  exists lvs, length lvs = length fs /\ (forall lv e, In (lv, e) (combine lvs fs) -> lv = false \/ exists c v, e = Facet c v) /\
    args = map (fun x => AFpe (fst x) (snd x)) (combine lvs fs) ++ ATrString str :: map APrintable ps.
Proof. exact separate_tr_ok. Qed.
Example C64_arguments_ex : forall p, separate_args [AFpe true (Pack []); AFpe false (Facet 1 2); APrintable p] = Some ([Pack []; Facet 1 2], [p]) /\
  separate_args [APrintable p; AFpe true (Facet 1 2)] = None /\
  separate_tr_args [AFpe true (Facet 1 2); ATrString [65]; APrintable p] = Some ([Facet 1 2], [65], [p]) /\
  separate_tr_args [AFpe true (Pack []); ATrString [65]; APrintable p] = None.
Proof. intros p. repeat split. Qed.
Print Assumptions C64_arguments.
Print Assumptions C64_tr_arguments.

(* The call: the texts of the printables one after the other (and a newline for line), each
   under the facets of all the with(...) and then those of the call.  Neither the reservation nor the
   order of evaluation shows. *)
Theorem C64_printed : forall Res get_default constrainable M (c : creator Res) (P : list Z -> Res -> Prop) cat qs cat' o (eol : bool) order args fs ps ds,
  creator_keeps c P -> chain cat (to_creator c) qs = Some (cat', o) -> separate_args args = Some (fs, ps) ->
  (forall l, Permutation l (order l)) ->
  shows_all get_default constrainable M (flat_map leaves (flat_map with_facets qs ++ fs)) ps ds ->
  exists r, sy_print get_default constrainable o eol order args = Some r /\
    P (concat (map d_text ds) ++ (if eol then [10] else [])) r.
Proof. intros. eapply sy_print_ok; eassumption. Qed.
(* tr, trline: the tr-string with the references replaced.  With reserve_calc it compiles only
   if both kinds of destination are the same class, as for append *)
Theorem C64_tr_printed : forall Res get_default constrainable M charset_c void_tag (cset_of : Z -> cset) (c : creator Res) (P : list Z -> Res -> Prop) cat qs cat' o (eol : bool) args fs str tps ps ds,
  creator_keeps c P -> chain cat (to_creator c) qs = Some (cat', o) -> separate_tr_args args = Some (fs, str, ps) ->
  let ls := flat_map leaves (flat_map with_facets qs ++ fs) in
  shows_all get_default constrainable M ls ps ds -> parses 0 str tps -> zlen ps < 2 ^ 59 ->
  let b := cset_of (facet_for get_default ls charset_c void_tag) in
  let text := items_text b (map d_text ds) (resolve (zlen ps) 0 tps) ++ (if eol then [10] else []) in
  (last_reserve qs = CalcSize -> cr_same c = true /\ zlen text < 2 ^ 63 /\ Forall (fun d => zlen (d_text d) < 2 ^ 63) ds) ->
  exists r, sy_tr get_default constrainable charset_c void_tag cset_of o eol args = Some r /\ P text r.
Proof. intros. eapply sy_tr_ok; eassumption. Qed.

(* Where: to_string gives the text, append(str) adds it, a C string is terminated and holds a
   prefix of it, an array holds a prefix of it (both may go wrong for a text of more than 64 code
   units that does not fit: C08, C09); they hold all of it, and say so, exactly if it fits (C70);
   and so on *)
Theorem C64_destinations :
  creator_keeps c_to_string (fun text r => r = text) /\
  (forall str, creator_keeps (c_append str) (fun text r => r = str ++ text)) /\
  (forall buf, (1 <= length buf)%nat -> creator_keeps (c_cstr buf) (fun text r =>
     match r with
     | Some (buf', (in_buf, k), truncated) =>
         in_buf = true /\ length buf' = length buf /\ (k < length buf)%nat /\ nth k buf' 1 = 0 /\ is_prefix (firstn k buf') text /\
         (truncated = false <-> (length text < length buf)%nat) /\
         (truncated = false -> k = length text /\ buf' = text ++ 0 :: skipn (S (length text)) buf)
     | None => (64 < length text)%nat /\ (length buf <= length text)%nat
     end)) /\
  (forall buf, creator_keeps (c_array buf) (fun text r =>
     match r with
     | (buf', Some (true, k), truncated) =>
         length buf' = length buf /\ (k <= length buf)%nat /\ is_prefix (firstn k buf') text /\
         (truncated = false <-> (length text <= length buf)%nat) /\
         (truncated = false -> k = length text /\ buf' = text ++ skipn (length text) buf)
     | _ => (64 < length text)%nat /\ (length buf < length text)%nat
     end)) /\
  (forall oracle, creator_keeps (c_cfile oracle) (fun text r =>
     let '(file, count, success) := r in is_prefix file text /\ count = zlen file /\ (success = true <-> file = text))) /\
  (forall oracle, creator_keeps (c_streambuf oracle) (fun text r =>
     let '(file, count, success) := r in holed file text /\ count = zlen file /\ (success = true <-> file = text))).
Proof.
  split; [exact to_string_keeps|]. split; [exact append_keeps|]. split; [exact cstr_keeps|]. split; [exact array_keeps|]. split; [exact cfile_keeps|exact streambuf_keeps].
Qed.
Print Assumptions C64_printed.
Print Assumptions C64_tr_printed.
Print Assumptions C64_destinations.

(* facets given in the call are as facets of a last with(...) *)
Theorem C64_leading_facets : forall get_default constrainable M qs cat' o fs ps ds eol order,
  chain Rvalue (to_creator c_to_string) (qs ++ [QWith fs]) = Some (cat', o) -> (forall l, Permutation l (order l)) ->
  shows_all get_default constrainable M (flat_map leaves (flat_map with_facets qs ++ fs)) ps ds ->
  exists o1 cat1, chain Rvalue (to_creator c_to_string) qs = Some (cat1, o1) /\
    sy_print get_default constrainable o1 eol order (map (AFpe false) fs ++ map APrintable ps) =
    sy_print get_default constrainable o eol order (map APrintable ps).
Proof.
  intros df cn M qs cat' o fs ps ds eol order HC HO HD.
  assert (exists r, chain Rvalue (to_creator c_to_string) qs = Some r) as [[cat1 o1] HC1].
  { apply C64_compiles. intros before q after ->. apply (proj1 (C64_compiles _ c_to_string (( before ++ q :: after) ++ [QWith fs])) (ex_intro _ _ HC) before q (after ++ [QWith fs])). rewrite <- app_assoc. reflexivity. }
  exists o1, cat1. split; [exact HC1|].
  assert (S1 : separate_args (map (AFpe false) fs ++ map APrintable ps) = Some (fs, ps)).
  { apply separate_ok. exists (repeat false (length fs)). split; [apply repeat_length|]. f_equal. clear. induction fs as [|f fs IH]; [reflexivity|]. cbn. rewrite <- IH. reflexivity. }
  assert (S2 : separate_args (map APrintable ps) = Some ([], ps)).
  { apply separate_ok. exists []. split; reflexivity. }
  destruct (sy_print_ok df cn M c_to_string _ Rvalue qs cat1 o1 eol order _ fs ps ds to_string_keeps HC1 S1 HO HD) as (r1 & -> & ->).
  destruct (sy_print_ok df cn M c_to_string _ Rvalue (qs ++ [QWith fs]) cat' o eol order _ [] ps ds to_string_keeps HC S2 HO) as (r2 & -> & ->); [|reflexivity].
  rewrite app_nil_r, flat_map_app. cbn [flat_map with_facets]. rewrite app_nil_r. exact HD.
Qed.
Print Assumptions C64_leading_facets.

(* An integer: printed as C35-C39 say, by the facets the expression gives for its type.  [F_of]
   reads the charset, lettercase and numpunct facets off the look-up of a facet by category *)
Definition int_printable (get_default : Z -> Z) (F_of : (Z -> Z) -> int_facets) (tag : Z) f al sgn s (v : Z) : printable :=
  Plain (mk_plain tag 0 false (fun pack => of_printed (int_print (F_of (fun c => get_facet get_default c tag pack)) f al sgn s v)) (fun _ _ _ => None)).
Theorem C64_integer : forall get_default constrainable M (F_of : (Z -> Z) -> int_facets) gs_of rep_of tag f al sgn s v ls,
  (forall look look', (forall c, look c = look' c) -> F_of look = F_of look') ->
  (forall look, facets_ok (F_of look) (gs_of look) (rep_of look)) -> in_int sgn (sbits s) v -> align_ok (align_of al) -> opts_ok (opts_of f) ->
  (forall look, let r := request_of (F_of look) (gs_of look) (rep_of look) f al sgn s v in
     sep_ok (F_of look) f r /\ reserves (F_of look) f al r /\ 0 <= int_text_width r <= 32767) ->
  let look := fun c => facet_for get_default ls c tag in
  let r := request_of (F_of look) (gs_of look) (rep_of look) f al sgn s v in
  shows get_default constrainable M ls (int_printable get_default F_of tag f al sgn s v) (whole (int_text r) (65536 * int_text_width r)).
Proof.
  intros df cn M F_of gs_of rep_of tag f al sgn s v ls Hext HF Hv HA HO HR. cbv zeta.
  apply (shows_own df cn M ls _ (fun look2 => let look := fun c => look2 c tag in
    let r := request_of (F_of look) (gs_of look) (rep_of look) f al sgn s v in whole (int_text r) (65536 * int_text_width r))); [|left; reflexivity].
  intros l. cbv zeta. cbn [pl_arg].
  rewrite (Hext (fun c => get_facet df c tag (Pack l)) (fun c => facet_for df (flat_map leaves l) c tag)) by (intros c; apply get_facet_pack).
  destruct (HR (fun c => facet_for df (flat_map leaves l) c tag)) as (A & B & C). apply int_arg_ok; auto.
Qed.
Print Assumptions C64_integer.

(* an integer with punct(): category 10 is numpunct_c<10>, value 1 the numpunct of F8 (groups of
   three, commas), any other one has no grouping; the type int is tag 4 *)
Definition Fnone : int_facets := mk_facets true (utf_charset U8) LLower (fun _ => 3) (fun _ => 44).
Definition F_of (v : Z) : int_facets := if v =? 1 then F8 else Fnone.
Definition int_plain (df : Z -> Z) (n : Z) : plain :=
  mk_plain 4 99 false (fun pack => of_printed (int_print (F_of (get_facet df 10 4 pack)) (FStatic B10 true 0 0 NegativeOnly false) None true S4 n)) (fun _ _ _ => None).
(* a bool, overridable, category 98, tag 5; overrider 6 prints "yes" *)
Definition bool_plain : plain := mk_plain 5 98 true (fun _ => join_arg [fun p => of_printed (Some (mk_printed [OWrite [116;114;117;101]] 4 4)) p])
  (fun v _ => if v =? 6 then of_printed (Some (mk_printed [OWrite [121;101;115]] 3 3)) else fun _ => None).
Example C64_integer_ex : let df := fun c : Z => 0 in
  shows df (fun _ => true) None [mk_leaf [] 10 1] (int_printable df (fun look => F_of (look 10)) 4 (FStatic B10 true 0 0 NegativeOnly false) None true S4 1234567)
    (whole [49;44;50;51;52;44;53;54;55] (65536 * 9)).
Proof.
  intros df.
  refine (C64_integer df (fun _ => true) None (fun look => F_of (look 10)) (fun look => if look 10 =? 1 then gs8 else fun _ => []) (fun look => if look 10 =? 1 then rep8 else fun _ => false)
    4 (FStatic B10 true 0 0 NegativeOnly false) None true S4 1234567 [mk_leaf [] 10 1] _ _ _ _ _ _).
  - intros look look' E. rewrite E. reflexivity.
  - intros look. unfold F_of. destruct (look 10 =? 1); [exact F8_ok|].
    split; [apply utf_charset_ok| |intros b; cbn; lia]. intros b; destruct b; (split; [split; [repeat constructor; lia|cbn; lia]|]); split; try reflexivity; discriminate.
  - cbn. lia.
  - apply default_align_ok.
  - split; cbn; lia.
  - intros look. unfold F_of. destruct (look 10 =? 1); (split; [left; cbn; lia|]); (split; [split; [discriminate|discriminate]|vm_compute; split; discriminate]).
Qed.
Example C64_ex : let df := fun c : Z => 0 in let cn := fun c => negb (c =? 7) in let id := fun l : list (nat * arg) => l in
  (exists o, chain Rvalue (to_creator c_to_string) [QReserve 9; QWith [Facet 10 1]; QReserveCalc] = Some (Rvalue, o) /\
    sy_print df cn o true id [AFpe true (Constrained (fun t => t =? 5) (Facet 98 6)); APrintable (Plain (int_plain df 1234567));
      APrintable (Inner [Facet 10 2] [Plain (int_plain df 1234567); Plain bool_plain])] =
    Some [49;44;50;51;52;44;53;54;55; 49;50;51;52;53;54;55; 121;101;115; 10]).
Proof. eexists. split; [reflexivity|]. vm_compute. reflexivity. Qed.

(* C08, C09: a text of at most 64 units, however it is written, never meets the defect of
   C08_cstr_refuted and C09_array_refuted, whatever the size of the array *)
Theorem C08_cstr_short : forall buf os, (1 <= length buf)%nat -> Forall op_wf os -> (length (ops_text os) <= 64)%nat ->
  exists s' buf' k tr,
    run cstr_ops (cstr_init buf) os = Some s' /\ cstr_finish s' = Some (buf', (true, k), tr) /\
    length buf' = length buf /\ (k < length buf')%nat /\ nth k buf' 1 = 0 /\
    is_prefix (firstn k buf') (ops_text os) /\ (tr = false -> firstn k buf' = ops_text os).
Proof.
  intros buf os H1 Hw HL.
  destruct (run_ok cstr_ops _ (c_any_laws 1 (length buf)) os (cstr_init buf) []) as (s & E & [[H _]|[_ HT]]).
  - left. split; [apply (cstr_init_R buf H1)|discriminate].
  - exact Hw.
  - destruct (cstr_finish_ok _ _ _ H1 H) as (b & k & tr & EF & A & B & C & D & F & _).
    exists s, b, k, tr. rewrite A. auto 10.
  - cbn [app] in HT. lia.
Qed.
Theorem C09_array_short : forall buf os, Forall op_wf os -> (length (ops_text os) <= 64)%nat ->
  exists s' k tr,
    run cstr_ops (arr_init buf) os = Some s' /\ arr_finish s' = (Some (true, k), tr) /\
    length (c_buf s') = length buf /\ (k <= length buf)%nat /\
    is_prefix (firstn k (c_buf s')) (ops_text os) /\ (tr = false -> firstn k (c_buf s') = ops_text os).
Proof.
  intros buf os Hw HL.
  destruct (run_ok cstr_ops _ (c_any_laws 0 (length buf)) os (arr_init buf) []) as (s & E & [[H _]|[_ HT]]).
  - left. split; [apply (arr_init_R buf)|discriminate].
  - exact Hw.
  - destruct (arr_finish_ok _ _ _ H) as (k & tr & EF & A & B & C & D & _).
    exists s, k, tr. auto 10.
  - cbn [app] in HT. lia.
Qed.
Example C08_short_ex : option_map cstr_finish (run cstr_ops (cstr_init (repeat 7 4)) [OWrite [97;98;99;100;101]; OFill 9 45; OPut 33])
  = Some (Some ([97;98;99;0], (true, 3%nat), true)).
Proof. vm_compute. reflexivity. Qed.
Print Assumptions C08_cstr_short.
Print Assumptions C09_array_short.
