(* C62: format functions set their own option, the last call on an option wins, and
   nothing else changes. *)
From Verif Require Import Base WidthModel DestModel DestProofs GroupSpec GroupModel GroupProofs DigitsModel CharsetModel IntSpec IntModel IntProofs Properties_Int FloatSpec FloatModel FmtModel FmtProofs.

(* ---- specification: the options of a formatted value, and what each call gives ---- *)
Inductive opt_name :=
| OBase | OPrecision | OPad0 | OSign | OShowBase | OPunct                                   (* integers *)
| OFNotation | OFPrecision | OFPad0 | OFSign | OFShowPoint | OFPunct                        (* floating-point *)
| OFill | OWidth | OAlignment                                                               (* alignment *)
| OCount                                                                                    (* multi() *)
| OStrPrecision | OCharset | OPolicy.                                                       (* strings *)
Inductive opt_val := VZ (n : Z) | VB (b : bool) | VSign (s : showsign) | VAlign (a : text_align) | VNotation (n : notation)
| VPrec (p : option Z) | VCharset (c : option nat) | VPolicy (p : tpolicy).
Definition default_of (n : opt_name) : opt_val :=
  match n with
  | OBase => VZ 10 | OPrecision => VZ 0 | OPad0 => VZ 0 | OSign => VSign NegativeOnly | OShowBase => VB false | OPunct => VB false
  | OFNotation => VNotation NGeneral | OFPrecision => VZ (-1) | OFPad0 => VZ 0 | OFSign => VSign NegativeOnly | OFShowPoint => VB false | OFPunct => VB false
  | OFill => VZ 32 | OWidth => VZ 0 | OAlignment => VAlign ARight
  | OCount => VZ 1 | OStrPrecision => VPrec None | OCharset => VCharset None | OPolicy => VPolicy PNone
  end.
(* the value a call gives to an option, if it is about that option *)
Definition given (c : fcall) (n : opt_name) : option opt_val :=
  match c, n with
  | KInt CHex, OBase => Some (VZ 16) | KInt CDec, OBase => Some (VZ 10) | KInt COct, OBase => Some (VZ 8) | KInt CBin, OBase => Some (VZ 2)
  | KInt (CPrec p), OPrecision => Some (VZ p) | KInt (CPad0 p), OPad0 => Some (VZ p)
  | KInt CPlus, OSign => Some (VSign PositiveAlso) | KInt CFillSign, OSign => Some (VSign FillInsteadOfPositive)
  | KInt CShowBase, OShowBase => Some (VB true) | KInt CPunct, OPunct => Some (VB true)
  | KFloat LPlus, OFSign => Some (VSign PositiveAlso) | KFloat LFillSign, OFSign => Some (VSign FillInsteadOfPositive)
  | KFloat LShowPoint, OFShowPoint => Some (VB true) | KFloat LPunct, OFPunct => Some (VB true)
  | KFloat (LPrec p), OFPrecision => Some (VZ p) | KFloat (LPad0 p), OFPad0 => Some (VZ p)
  | KFloat (LNotation k), OFNotation => Some (VNotation k) | KFloat LGen, OFNotation => Some (VNotation NGeneral)
  | KFloat (LSet f), OFNotation | KFloat (LSetNoPunct f), OFNotation => Some (VNotation (ff_notation f))
  | KFloat (LSet f), OFPrecision | KFloat (LSetNoPunct f), OFPrecision => Some (VZ (ff_precision f))
  | KFloat (LSet f), OFPad0 | KFloat (LSetNoPunct f), OFPad0 => Some (VZ (ff_pad0 f))
  | KFloat (LSet f), OFSign | KFloat (LSetNoPunct f), OFSign => Some (VSign (ff_sign f))
  | KFloat (LSet f), OFShowPoint | KFloat (LSetNoPunct f), OFShowPoint => Some (VB (ff_showpoint f))
  | KFloat (LSet f), OFPunct => Some (VB (ff_punct f)) | KFloat (LSetNoPunct f), OFPunct => Some (VB false)
  | KFloat LSetDefault, (OFNotation | OFPrecision | OFPad0 | OFSign | OFShowPoint | OFPunct) => Some (default_of n)
  | KAlign (GFill ch), OFill => Some (VZ (ch mod 2 ^ 32))
  | KAlign (GLeft w), OWidth | KAlign (GRight w), OWidth | KAlign (GCenter w), OWidth => Some (VZ w)
  | KAlign (GLeft _), OAlignment => Some (VAlign ALeft) | KAlign (GRight _), OAlignment => Some (VAlign ARight)
  | KAlign (GCenter _), OAlignment => Some (VAlign ACenter)
  | KAlign (GSet a), OFill => Some (VZ (al_fill a)) | KAlign (GSet a), OWidth => Some (VZ (al_width a))
  | KAlign (GSet a), OAlignment => Some (VAlign (al_align a))
  | KAlign GClear, (OFill | OWidth | OAlignment) => Some (default_of n)
  | KMulti k, OCount => Some (VZ (Z.max 0 k))
  | KPrecision p, OStrPrecision => Some (VPrec (Some p))
  | KCharset (HPolicy p), OPolicy | KCharset (HFrom _ p), OPolicy => Some (VPolicy p)
  | KCharset (HFrom s _), OCharset => Some (VCharset (Some s))
  | _, _ => None
  end.
(* the last call on the option wins *)
Definition last_given (n : opt_name) (cs : list fcall) (start : opt_val) : opt_val :=
  fold_left (fun x c => match given c n with Some y => y | None => x end) cs start.

(* ---- the observers of the object (get_int_format, get_float_format, get_alignment_format,
   count, get_string_precision, get_charset, ...) ---- *)
Definition option_of {V} (v : vf V) (n : opt_name) : opt_val :=
  let get (k : family) (f : spec -> opt_val) := match spec_of k (vf_specs v) with Some s => f s | None => default_of n end in
  match n with
  | OBase | OPrecision | OPad0 | OSign | OShowBase | OPunct =>
      get KInteger (fun s => match s with
        | SInt f => let o := opts_of f in
            match n with OBase => VZ (o_base o) | OPrecision => VZ (o_prec o) | OPad0 => VZ (o_pad0 o) | OSign => VSign (o_sign o)
            | OShowBase => VB (o_showbase o) | _ => VB (o_punct o) end
        | _ => default_of n end)
  | OFNotation | OFPrecision | OFPad0 | OFSign | OFShowPoint | OFPunct =>
      get KFloating (fun s => match s with
        | SFloat f => let o := ff_get f in
            match n with OFNotation => VNotation (ff_notation o) | OFPrecision => VZ (ff_precision o) | OFPad0 => VZ (ff_pad0 o)
            | OFSign => VSign (ff_sign o) | OFShowPoint => VB (ff_showpoint o) | _ => VB (ff_punct o) end
        | _ => default_of n end)
  | OFill | OWidth | OAlignment =>
      get KAlignment (fun s => match s with
        | SAlign a => let d := match a with Some d => d | None => default_align end in
            match n with OFill => VZ (al_fill d) | OWidth => VZ (al_width d) | _ => VAlign (al_align d) end
        | _ => default_of n end)
  | OCount => get KRepeat (fun s => match s with SQuantity k => VZ k | _ => default_of n end)
  | OStrPrecision => get KStringPrecision (fun s => match s with SPrecision p => VPrec p | _ => default_of n end)
  | OCharset => get KTranscoding (fun s => match s with SCharset c _ => VCharset c | _ => default_of n end)
  | OPolicy => get KTranscoding (fun s => match s with SCharset _ p => VPolicy p | _ => default_of n end)
  end.
(* base(n) is the one call with another effect: C41 *)
Definition no_base (cs : list fcall) : Prop := forall n, ~ In (KInt (CBase n)) cs.

Lemma option_step {V} (v v' : vf V) c n : (forall b, c <> KInt (CBase b)) -> distinct (vf_specs v) -> vf_call v c = Some v' ->
  option_of v' n = match given c n with Some y => y | None => option_of v n end.
Proof.
  intros NB D H. destruct (vf_call_spec v v' c D H) as (_ & _ & _ & s & new & F & S1 & K).
  assert (KI := K KInteger). assert (KF := K KFloating). assert (KA := K KAlignment). assert (KQ := K KRepeat).
  assert (KP := K KStringPrecision). assert (KT := K KTranscoding). clear K.
  destruct c as [c|c|c|k|p|c]; cbn [call_family] in *;
    repeat match goal with H : context [family_eq ?a ?b] |- _ =>
      let E := fresh in destruct (family_eq a b) as [E|E]; [try discriminate E|try (exfalso; apply E; reflexivity)]; clear E end.
  - destruct s as [f| | | | |]; cbn [spec_step] in S1; try discriminate. destruct (call f c) as [f'|] eqn:C; [|discriminate]. cbn in S1. injection S1 as <-.
    destruct n; unfold option_of; rewrite ?KI, ?KF, ?KA, ?KQ, ?KP, ?KT, ?F;
      (destruct c; [..|exfalso; eapply NB; reflexivity]); cbn [given]; try reflexivity;
      destruct f as [|b sg sb|b pn pr pd sg sb|n' pr pd sg sb pn]; cbn [call set_base] in C;
      repeat match type of C with context [match ?b with B2 => _ | B8 => _ | B10 => _ | B16 => _ end] => destruct b end;
      try discriminate C; injection C as <-; reflexivity.
  - destruct s as [|f| | | |]; cbn [spec_step] in S1; try discriminate. injection S1 as <-.
    destruct n; unfold option_of; rewrite ?KI, ?KF, ?KA, ?KQ, ?KP, ?KT, ?F; destruct c; cbn [given]; try reflexivity;
      destruct f; reflexivity.
  - destruct s as [| |a| | |]; cbn [spec_step] in S1; try discriminate. injection S1 as <-.
    destruct n; unfold option_of; rewrite ?KI, ?KF, ?KA, ?KQ, ?KP, ?KT, ?F; destruct c; cbn [given]; try reflexivity;
      destruct a; reflexivity.
  - destruct s; cbn [spec_step] in S1; try discriminate. injection S1 as <-.
    destruct n; unfold option_of; rewrite ?KI, ?KF, ?KA, ?KQ, ?KP, ?KT, ?F; cbn [given]; try reflexivity.
    unfold multi_count. destruct (Z.ltb_spec k 0); do 2 f_equal; lia.
  - destruct s; cbn [spec_step] in S1; try discriminate. injection S1 as <-.
    destruct n; unfold option_of; rewrite ?KI, ?KF, ?KA, ?KQ, ?KP, ?KT, ?F; cbn [given]; reflexivity.
  - destruct s; cbn [spec_step] in S1; try discriminate. injection S1 as <-.
    destruct n; unfold option_of; rewrite ?KI, ?KF, ?KA, ?KQ, ?KP, ?KT, ?F; destruct c; cbn [given]; reflexivity.
Qed.
Lemma options_fold {V} n : forall cs (v v' : vf V), no_base cs -> distinct (vf_specs v) -> vf_calls v cs = Some v' ->
  option_of v' n = last_given n cs (option_of v n).
Proof.
  induction cs as [|c cs IH]; intros v v' NB D H; cbn [vf_calls] in H.
  - injection H as <-. reflexivity.
  - destruct (vf_call v c) as [v1|] eqn:E; [|discriminate]. cbn [obind] in H.
    destruct (vf_call_spec v v1 c D E) as (_ & D1 & _).
    rewrite (IH v1 v' (fun b Hb => NB b (or_intror Hb)) D1 H). unfold last_given. cbn [fold_left]. f_equal.
    apply option_step; [intros b Q; apply (NB b); left; congruence|exact D|exact E].
Qed.
Lemma default_distinct k : distinct (default_specs k).
Proof. destruct k; repeat constructor; cbn; intuition discriminate. Qed.
Lemma default_option {V} k (x : V) n : option_of (fmt k x) n = default_of n.
Proof. destruct k, n; reflexivity. Qed.

(* C62: any sequence of calls on fmt(x): the value is x, and each option has the value
   the last call about it gave, or its default *)
Theorem C62_last_wins : forall V k (x : V) cs v', no_base cs -> vf_calls (fmt k x) cs = Some v' ->
  vf_value v' = x /\ forall n, option_of v' n = last_given n cs (default_of n).
Proof.
  intros V k x cs v' NB H. destruct (vf_calls_spec cs (fmt k x) v' (default_distinct k) H) as (E & _). split; [exact E|].
  intros n. rewrite (options_fold n cs (fmt k x) v' NB (default_distinct k) H), default_option. reflexivity.
Qed.
Example C62_last_wins_ex : exists v', vf_calls (fmt PInt 255) [KAlign (GFill 42); KInt CHex; KAlign (GLeft 655360); KInt (CPrec 4); KAlign (GCenter 131072); KInt CShowBase] = Some v' /\
  vf_value v' = 255 /\ option_of v' OBase = VZ 16 /\ option_of v' OFill = VZ 42 /\ option_of v' OWidth = VZ 131072 /\ option_of v' OAlignment = VAlign ACenter /\ option_of v' OShowBase = VB true.
Proof. eexists. split; [reflexivity|]. repeat split. Qed.
Print Assumptions C62_last_wins.

(* any formatted value may be formatted further *)
Theorem C62_continues : forall V k (x : V) cs1 cs2 v1 v2, no_base cs2 ->
  vf_calls (fmt k x) cs1 = Some v1 -> vf_calls v1 cs2 = Some v2 ->
  vf_value v2 = x /\ forall n, option_of v2 n = last_given n cs2 (option_of v1 n).
Proof.
  intros V k x cs1 cs2 v1 v2 NB H1 H2. destruct (vf_calls_spec cs1 (fmt k x) v1 (default_distinct k) H1) as (E1 & D1 & _).
  destruct (vf_calls_spec cs2 v1 v2 D1 H2) as (E2 & _). split; [rewrite E2; exact E1|]. intros n. apply options_fold; assumption.
Qed.
Example C62_continues_ex : exists v1 v2, vf_calls (fmt PFloat 1) [KFloat LPunct] = Some v1 /\ vf_calls v1 [KAlign (GRight 10); KFloat (LPrec 3)] = Some v2 /\
  option_of v2 OFPunct = VB true /\ option_of v2 OFPrecision = VZ 3 /\ option_of v2 OWidth = VZ 10.
Proof. do 2 eexists. repeat split. Qed.
Print Assumptions C62_continues.

(* calls of different families never disturb each other: exactly the same object
   in either order, and one order compiles when the other does (with base(n) too) *)
Lemma in_place_comm c d new new' ss : family_of new = call_family c -> family_of new' = call_family d -> call_family c <> call_family d ->
  in_place c new (in_place d new' ss) = in_place d new' (in_place c new ss).
Proof.
  intros N N' Q. induction ss as [|x ss IH]; [reflexivity|]. cbn [in_place].
  destruct (has_member x d) eqn:Ed, (has_member x c) eqn:Ec; cbn [in_place]; rewrite ?Ed, ?Ec; try reflexivity.
  - exfalso. apply has_member_family in Ed. apply has_member_family in Ec. congruence.
  - assert (has_member new' c = false) as -> by (apply has_member_false; congruence). reflexivity.
  - assert (has_member new d = false) as -> by (apply has_member_false; congruence). reflexivity.
  - rewrite IH. reflexivity.
Qed.
Theorem C62_order : forall V (v : vf V) c d, distinct (vf_specs v) -> call_family c <> call_family d ->
  vf_calls v [c; d] = vf_calls v [d; c].
Proof.
  intros V v c d D Q. cbn [vf_calls].
  assert (Two : forall c d, call_family c <> call_family d -> (do v' <- vf_call v c ; do w <- vf_call v' d ; Some w) =
    (do s <- spec_of (call_family c) (vf_specs v) ; do new <- spec_step s c ;
     do s' <- spec_of (call_family d) (vf_specs v) ; do new' <- spec_step s' d ;
     Some (mk_vf (vf_value v) (in_place d new' (in_place c new (vf_specs v)))))).
  { clear c d Q. intros c d Q. rewrite (vf_call_eq v c D), find_member_spec. destruct (spec_of (call_family c) (vf_specs v)) as [s|] eqn:F; [|reflexivity]. cbn [obind].
    destruct (spec_step s c) as [new|] eqn:E; [|reflexivity]. cbn [obind].
    assert (N : family_of new = call_family c) by (rewrite (spec_step_family _ _ _ E); apply spec_of_some with (1 := F)).
    rewrite vf_call_eq by (unfold distinct; cbn [vf_specs]; rewrite (in_place_family c new _ N); exact D). cbn [vf_specs vf_value].
    rewrite find_member_spec, (spec_of_in_place c new _ _ N). destruct (family_eq (call_family c) (call_family d)); [contradiction|].
    destruct (spec_of (call_family d) (vf_specs v)) as [s'|]; [|reflexivity]. cbn [obind]. destruct (spec_step s' d); reflexivity. }
  rewrite (Two c d Q), (Two d c (fun X => Q (eq_sym X))).
  destruct (spec_of (call_family c) (vf_specs v)) as [s|] eqn:F, (spec_of (call_family d) (vf_specs v)) as [s'|] eqn:F'; cbn [obind]; try reflexivity.
  2: destruct (spec_step s c); reflexivity. 2: destruct (spec_step s' d); reflexivity.
  destruct (spec_step s c) as [new|] eqn:E, (spec_step s' d) as [new'|] eqn:E'; cbn [obind]; try reflexivity. do 2 f_equal.
  apply in_place_comm; [| |congruence].
  - rewrite (spec_step_family _ _ _ E'); apply spec_of_some with (1 := F').
  - rewrite (spec_step_family _ _ _ E); apply spec_of_some with (1 := F).
Qed.
Example C62_order_ex : vf_calls (fmt PString 7) [KPrecision 5; KAlign (GLeft 9)] = vf_calls (fmt PString 7) [KAlign (GLeft 9); KPrecision 5] /\
  vf_calls (fmt PString 7) [KPrecision 5; KAlign (GLeft 9)] <> None /\ distinct (default_specs PString).
Proof. split; [reflexivity|]. split; [discriminate|apply default_distinct]. Qed.
Print Assumptions C62_order.

(* which chains compile: a call must be of a family the type has, and only integer
   calls can be rejected (sign outside base ten, showbase in base ten) *)
Theorem C62_compiles : forall V k (x : V) cs,
  (exists v', vf_calls (fmt k x) cs = Some v') <->
  (forall c, In c cs -> In (call_family c) (map family_of (default_specs k))) /\
  (k = PInt -> calls FDefault (flat_map (fun c => match c with KInt d => [d] | _ => [] end) cs) <> None).
Proof.
  intros V k x cs. rewrite (vf_calls_compile cs (fmt k x) (default_distinct k)). cbn [fmt vf_specs].
  apply and_iff_compat_l.
  assert (Int : forall cs f, spec_steps (SInt f) (of_family KInteger cs) = option_map SInt (calls f (flat_map (fun c => match c with KInt d => [d] | _ => [] end) cs))).
  { clear cs. induction cs as [|c cs IH]; intros f; [reflexivity|]. destruct c; try apply IH.
    change (of_family KInteger (KInt c :: cs)) with (KInt c :: of_family KInteger cs). cbn [spec_steps spec_step flat_map app calls].
    destruct (call f c) as [f'|]; [|reflexivity]. apply IH. }
  assert (Oth : forall k cs s, family_of s = k -> k <> KInteger -> exists s', spec_steps s (of_family k cs) = Some s').
  { clear cs Int. intros fam cs. induction cs as [|c cs IH]; intros s Hs Hk; [exists s; reflexivity|]. unfold of_family. cbn [filter]. fold (of_family fam cs).
    destruct (family_eq (call_family c) fam) as [Q|Q]; [|apply IH; assumption]. cbn [spec_steps].
    assert (exists s', spec_step s c = Some s') as [s' E].
    { destruct s, c; cbn in Hs, Q; try congruence; eexists; reflexivity. }
    rewrite E. apply IH; [rewrite (spec_step_family _ _ _ E); exact Hs|exact Hk]. }
  split.
  - intros H ->. specialize (H KInteger (SInt FDefault) eq_refl). rewrite Int in H. destruct (calls _ _); [discriminate|]. exfalso. apply H. reflexivity.
  - intros H fam s Hs. destruct (family_eq fam KInteger) as [->|Q].
    + destruct k; try discriminate Hs. cbn in Hs. injection Hs as <-. rewrite Int. specialize (H eq_refl). destruct (calls _ _); [discriminate|congruence].
    + destruct (Oth fam cs s (spec_of_some _ _ _ Hs) Q) as [s' ->]. discriminate.
Qed.
Example C62_compiles_ex : (exists v', vf_calls (fmt PInt 7) [KInt CPlus; KAlign (GRight 5)] = Some v') /\
  vf_calls (fmt PInt 7) [KInt CHex; KInt CPlus] = None /\ vf_calls (fmt PBool 7) [KMulti 3] = None.
Proof. split; [eexists; reflexivity|]. split; reflexivity. Qed.
Print Assumptions C62_compiles.

(* an integer's format depends on the integer calls alone, base(n) included (C41) *)
Theorem C62_integer_isolated : forall V (x : V) cs v', vf_calls (fmt PInt x) cs = Some v' ->
  exists f, In (SInt f) (vf_specs v') /\ calls FDefault (flat_map (fun c => match c with KInt d => [d] | _ => [] end) cs) = Some f.
Proof.
  intros V x cs v' H. destruct (vf_calls_spec cs (fmt PInt x) v' (default_distinct PInt) H) as (_ & _ & _ & K).
  destruct (K KInteger (SInt FDefault) eq_refl) as (s' & F & S1).
  assert (Int : forall cs f, spec_steps (SInt f) (of_family KInteger cs) = option_map SInt (calls f (flat_map (fun c => match c with KInt d => [d] | _ => [] end) cs))).
  { clear. induction cs as [|c cs IH]; intros f; [reflexivity|]. destruct c; try apply IH.
    change (of_family KInteger (KInt c :: cs)) with (KInt c :: of_family KInteger cs). cbn [spec_steps spec_step flat_map app calls].
    destruct (call f c) as [f'|]; [|reflexivity]. apply IH. }
  rewrite Int in S1. destruct (calls _ _) as [f|]; [|discriminate]. cbn in S1. injection S1 as <-. exists f. split; [|reflexivity].
  apply find_some in F. tauto.
Qed.
Example C62_integer_isolated_ex : exists v', vf_calls (fmt PInt 7) [KInt (CPrec 5); KAlign (GLeft 3); KInt (CBase 16)] = Some v' /\ In (SInt (FDyn 16 0 0 NegativeOnly false false)) (vf_specs v').
Proof. eexists. split; [reflexivity|]. left. reflexivity. Qed.
Print Assumptions C62_integer_isolated.

(* the free functions: left(x, w, ch) and the others set those options and no other *)
Definition free_given (f : free_fn) : list (opt_name * opt_val) :=
  match f with
  | Fhex => [(OBase, VZ 16)] | Fdec => [(OBase, VZ 10)] | Foct => [(OBase, VZ 8)] | Fbin => [(OBase, VZ 2)]
  | Fpunct => [(OPunct, VB true)] | Fpad0 n => [(OPad0, VZ n)]
  | Ffhex => [(OFNotation, VNotation NHex)]
  | Ffixed => [(OFNotation, VNotation NFixed)] | Ffixed_p n => [(OFNotation, VNotation NFixed); (OFPrecision, VZ n)]
  | Fsci => [(OFNotation, VNotation NScientific)] | Fsci_p n => [(OFNotation, VNotation NScientific); (OFPrecision, VZ n)]
  | Fgen => [(OFNotation, VNotation NGeneral)] | Fgen_p n => [(OFNotation, VNotation NGeneral); (OFPrecision, VZ n)]
  | Ffpunct => [(OFPunct, VB true)] | Ffpad0 n => [(OFPad0, VZ n)]
  | Fmulti n => [(OCount, VZ (Z.max 0 n))]
  | Ftranscode => [(OPolicy, VPolicy PIfDifferent)] | Ftranscode_from c => [(OCharset, VCharset (Some c)); (OPolicy, VPolicy PIfDifferent)]
  | Fsani => [(OPolicy, VPolicy PAlways)] | Fsani_from c => [(OCharset, VCharset (Some c)); (OPolicy, VPolicy PAlways)]
  | Funsafe => [(OPolicy, VPolicy PUnsafe)] | Funsafe_from c => [(OCharset, VCharset (Some c)); (OPolicy, VPolicy PUnsafe)]
  | Fright w => [(OWidth, VZ w); (OAlignment, VAlign ARight)]
  | Fright_fill w ch => [(OFill, VZ (ch mod 2 ^ 32)); (OWidth, VZ w); (OAlignment, VAlign ARight)]
  | Fleft w => [(OWidth, VZ w); (OAlignment, VAlign ALeft)]
  | Fleft_fill w ch => [(OFill, VZ (ch mod 2 ^ 32)); (OWidth, VZ w); (OAlignment, VAlign ALeft)]
  | Fcenter w => [(OWidth, VZ w); (OAlignment, VAlign ACenter)]
  | Fcenter_fill w ch => [(OFill, VZ (ch mod 2 ^ 32)); (OWidth, VZ w); (OAlignment, VAlign ACenter)]
  end.
Theorem C62_free_functions : forall V k (x : V) cs v f v', vf_calls (fmt k x) cs = Some v -> free_call v f = Some v' ->
  vf_value v' = x /\
  (forall n y, In (n, y) (free_given f) -> option_of v' n = y) /\
  (forall n, ~ In n (map fst (free_given f)) -> option_of v' n = option_of v n).
Proof.
  intros V k x cs v f v' H H'.
  assert (NB : no_base (free_calls f)) by (intros b Hb; destruct f; cbn in Hb; intuition discriminate).
  destruct (C62_continues V k x cs (free_calls f) v v' NB H H') as [E O]. split; [exact E|]. split.
  - intros n y Hy. rewrite O. destruct f; cbn [free_given] in Hy;
      repeat (destruct Hy as [Hy|Hy]; [injection Hy as <- <-; reflexivity|]); contradiction.
  - intros n Hn. rewrite O. destruct f, n; try reflexivity; exfalso; apply Hn; cbn; tauto.
Qed.
Example C62_free_functions_ex : exists v v', vf_calls (fmt PInt 10) [KInt CHex] = Some v /\ free_call v (Fcenter_fill 655360 126) = Some v' /\
  option_of v' OBase = VZ 16 /\ option_of v' OFill = VZ 126 /\ option_of v' OAlignment = VAlign ACenter.
Proof. do 2 eexists. repeat split. Qed.
Print Assumptions C62_free_functions.

(* what is printed depends on the options only, not on the chain of calls that set
   them (and so not on the classes the chain went through) *)
Definition separators_ok (F : int_facets) : Prop := forall b, if_sep F b < 0x80 \/ cs_validate (if_cs F) (if_sep F b) <> -1.
Theorem C62_same_options_same_text : forall F gs rep sgn s x cs1 cs2 v1 v2,
  facets_ok F gs rep -> separators_ok F -> in_int sgn (sbits s) x ->
  vf_calls (fmt PInt x) cs1 = Some v1 -> vf_calls (fmt PInt x) cs2 = Some v2 ->
  (forall n, option_of v1 n = option_of v2 n) ->
  (forall fill w, option_of v1 OFill = VZ fill -> option_of v1 OWidth = VZ w -> 0 <= fill < 2 ^ 32 /\ is_width w) ->
  (forall p d, option_of v1 OPrecision = VZ p -> option_of v1 OPad0 = VZ d -> p <= 2 ^ 31 - 256 /\ d <= 2 ^ 31 - 256) ->
  exists p1 p2, int_printed F v1 sgn s = Some p1 /\ int_printed F v2 sgn s = Some p2 /\
    ops_text (pr_ops p1) = ops_text (pr_ops p2) /\ pr_size p1 = pr_size p2 /\ pr_width p1 = pr_width p2.
Proof.
  intros F gs rep sgn s x cs1 cs2 v1 v2 K S Hx H1 H2 E HA HO.
  assert (Shape : forall cs v, vf_calls (fmt PInt x) cs = Some v -> vf_value v = x /\ exists f a, vf_specs v = [SInt f; SAlign a]).
  { intros cs v H. destruct (vf_calls_spec cs (fmt PInt x) v (default_distinct PInt) H) as (Ev & _ & M & _). split; [exact Ev|].
    destruct (vf_specs v) as [|[f| | | | |] [|[|f'|a| | |] [|]]]; try discriminate M. eauto. }
  destruct (Shape _ _ H1) as (V1 & f1 & a1 & S1). destruct (Shape _ _ H2) as (V2 & f2 & a2 & S2). clear Shape.
  unfold option_of in E, HA, HO. rewrite S1 in E, HA, HO. rewrite S2 in E. unfold int_printed. rewrite S1, S2, V1, V2.
  assert (Eo : opts_of f1 = opts_of f2).
  { pose proof (E OBase) as A. pose proof (E OPrecision) as B. pose proof (E OPad0) as C. pose proof (E OSign) as D. pose proof (E OShowBase) as G. pose proof (E OPunct) as I.
    cbn [spec_of find family_of family_eq] in A, B, C, D, G, I. cbn in A, B, C, D, G, I. destruct (opts_of f1), (opts_of f2). cbn in *. congruence. }
  assert (Ea : align_of a1 = align_of a2).
  { pose proof (E OFill) as A. pose proof (E OWidth) as B. pose proof (E OAlignment) as C. cbn in A, B, C. unfold align_of.
    destruct (match a1 with Some _ => _ | None => _ end), (match a2 with Some _ => _ | None => _ end). cbn in *. congruence. }
  assert (Hal : align_ok (align_of a1)) by (apply HA; reflexivity).
  assert (Hop : opts_ok (opts_of f1)) by (apply HO; reflexivity).
  assert (So : forall f r, sep_ok F f r) by (intros f r; unfold sep_ok; destruct (S (fmt_base f)); auto).
  destruct (int_print_ok F gs rep f1 a1 sgn s x K Hx Hal Hop (So _ _)) as (p1 & P1 & (T1 & Z1 & W1) & _).
  rewrite Ea in Hal. rewrite Eo in Hop.
  destruct (int_print_ok F gs rep f2 a2 sgn s x K Hx Hal Hop (So _ _)) as (p2 & P2 & (T2 & Z2 & W2) & _).
  assert (R : request_of F gs rep f1 a1 sgn s x = request_of F gs rep f2 a2 sgn s x).
  { assert (B : fmt_base f1 = fmt_base f2).
    { pose proof (fmt_base_ok f1) as X. rewrite Eo, (fmt_base_ok f2) in X. destruct (fmt_base f1), (fmt_base f2); (reflexivity || discriminate X). }
    unfold request_of. rewrite B, Eo, Ea. reflexivity. }
  exists p1, p2. rewrite T1, T2, Z1, Z2, W1, W2, R. repeat split; assumption.
Qed.
Example C62_same_options_same_text_ex : exists v1 v2,
  vf_calls (fmt PInt 4660) [KInt CHex; KAlign (GRight 655360); KInt CDec; KAlign (GFill 42)] = Some v1 /\
  vf_calls (fmt PInt 4660) [KAlign (GFill 42); KAlign (GRight 655360)] = Some v2 /\
  v1 <> v2 /\ (forall n, option_of v1 n = option_of v2 n) /\ facets_ok F8 gs8 rep8 /\ separators_ok F8 /\
  option_map (fun p => ops_text (pr_ops p)) (int_printed F8 v1 true S4) = Some [42; 42; 42; 42; 42; 42; 52; 54; 54; 48].
Proof.
  do 2 eexists. split; [reflexivity|]. split; [reflexivity|]. split; [discriminate|]. split; [intros []; reflexivity|].
  split; [exact F8_ok|]. split; [intros b; left; vm_compute; reflexivity|vm_compute; reflexivity].
Qed.
Print Assumptions C62_same_options_same_text.
