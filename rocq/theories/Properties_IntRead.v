(* Theorems about reading printed integers back: C72.  IntReadSpec says how a text is read. *)
From Verif Require Import Base WidthModel WidthProofs DestModel DestProofs GroupSpec GroupModel GroupProofs GroupDist
  DigitsSpec DigitsModel DigitsCount DigitsProofs UtfSpec UtfForms CharsetModel IntSpec IntModel IntProofs IntReadSpec IntRead Properties_Int
  PrintModel PrintSpec PrintProofs CharProofs ToModel ToProofs PackSpec PackModel PackProofs SyntaxModel SyntaxSpec SyntaxProofs Properties_Syntax.
From Coq Require Import Permutation.

(* the encoded separator of a format that uses it, and the encoded fill character *)
Definition used_sep (F : int_facets) (f : int_fmt) : list Z :=
  if o_punct (opts_of f) then cs_encode (if_cs F) (if_sep F (fmt_base f)) else [].
Definition used_fill (F : int_facets) (al : option align_fmt) : list Z := cs_encode (if_cs F) (al_fill (align_of al)).
(* they can be told from digits and signs; a positive number is not to be marked by the fill character *)
Record legible (F : int_facets) (f : int_fmt) (al : option align_fmt) : Prop := mk_legible {
  lg_sep : Forall neutral (used_sep F f);
  lg_fill : Forall neutral (used_fill F al);
  lg_sign : o_sign (opts_of f) <> FillInsteadOfPositive }.
(* decimal shows the value, the other bases its two's complement bits *)
Definition shown_value (f : int_fmt) (s : isize) (v : Z) : Z := if o_base (opts_of f) =? 10 then v else v mod 2 ^ sbits s.

Theorem C72_integer : forall F gs rep f al sgn s v, facets_ok F gs rep -> in_int sgn (sbits s) v -> align_ok (align_of al) -> opts_ok (opts_of f) ->
  sep_ok F f (request_of F gs rep f al sgn s v) -> legible F f al ->
  exists p, int_print F f al sgn s v = Some p /\
    read_integer (o_base (opts_of f)) (used_sep F f) (used_fill F al) (ops_text (pr_ops p)) = Some (shown_value f s v).
Proof.
  intros F gs rep f al sgn s v HF Hv HA HO HS [L1 L2 L3].
  destruct (C39_integer_text F gs rep f al sgn s v HF Hv HA HO HS) as (p & E & T). exists p. split; [exact E|]. rewrite T.
  set (r := request_of F gs rep f al sgn s v). assert (Hm : 0 <= magnitude r).
  { unfold magnitude. destruct (rq_base r =? 10); [apply Z.abs_nonneg|]. apply Z.mod_pos_bound. apply Z.pow_pos_nonneg; [lia|]. destruct s; cbn; lia. }
  refine (eq_trans (text_reads r (used_sep F f) _ Hm L1 L2 _ L3) _).
  - unfold r, request_of. cbn [request rq_base]. rewrite fmt_base_ok. destruct (fmt_base f); cbn; auto.
  - unfold used_sep, r, request_of. cbn [request rq_boundary rq_sep]. destruct (o_punct (opts_of f)); [right; reflexivity|left; reflexivity].
  - unfold shown_value, r, magnitude, request_of. cbn [request rq_base rq_value rq_bits]. destruct (o_base (opts_of f) =? 10); reflexivity.
Qed.
(* so, in one format, different values of a type have different texts *)
Theorem C72_injective : forall F gs rep f al sgn s v v', facets_ok F gs rep -> in_int sgn (sbits s) v -> in_int sgn (sbits s) v' -> align_ok (align_of al) -> opts_ok (opts_of f) ->
  sep_ok F f (request_of F gs rep f al sgn s v) -> sep_ok F f (request_of F gs rep f al sgn s v') -> legible F f al ->
  option_map (fun p => ops_text (pr_ops p)) (int_print F f al sgn s v) = option_map (fun p => ops_text (pr_ops p)) (int_print F f al sgn s v') -> v = v'.
Proof.
  intros F gs rep f al sgn s v v' HF Hv Hv' HA HO HS HS' HL E.
  destruct (C72_integer F gs rep f al sgn s v HF Hv HA HO HS HL) as (p & P & R). destruct (C72_integer F gs rep f al sgn s v' HF Hv' HA HO HS' HL) as (p' & P' & R').
  rewrite P, P' in E. cbn [option_map] in E. assert (ET : ops_text (pr_ops p) = ops_text (pr_ops p')) by congruence. rewrite ET, R' in R.
  assert (EV : shown_value f s v' = shown_value f s v) by congruence. exact (shown_injective f s sgn v v' Hv Hv' EV).
Qed.
(* pointers *)
Theorem C72_pointer : forall F gs rep address, facets_ok F gs rep -> 0 <= address < 2 ^ 64 ->
  exists p, voidptr_print F None address = Some p /\ read_integer 16 [] [] (ops_text (pr_ops p)) = Some address.
Proof.
  intros F gs rep a HF Ha. destruct (C39_pointer F gs rep a HF Ha) as (p & ds & E & HR & T). exists p. split; [exact E|]. rewrite T.
  rewrite (repr_unique 16 ds a ltac:(lia) HR). exact (pointer_reads (if_case F) a ltac:(lia)).
Qed.

(* to_string(v), with any facets, reservations and order of evaluation: from the string, the value *)
Theorem C72_to_string : forall get_default constrainable qs cat' o order fs ls (F_of : (Z -> Z) -> int_facets) gs_of rep_of tag f al sgn s v,
  chain Rvalue (to_creator c_to_string) qs = Some (cat', o) -> (forall l, Permutation l (order l)) ->
  ls = flat_map leaves (flat_map with_facets qs ++ fs) ->
  (forall look look', (forall c, look c = look' c) -> F_of look = F_of look') ->
  (forall look, facets_ok (F_of look) (gs_of look) (rep_of look)) -> in_int sgn (sbits s) v -> align_ok (align_of al) -> opts_ok (opts_of f) ->
  (forall look, let r := request_of (F_of look) (gs_of look) (rep_of look) f al sgn s v in
     sep_ok (F_of look) f r /\ reserves (F_of look) f al r /\ 0 <= int_text_width r <= 32767) ->
  let F := F_of (fun c => facet_for get_default ls c tag) in
  legible F f al ->
  exists t, sy_print get_default constrainable o false order (map (AFpe false) fs ++ [APrintable (int_printable get_default F_of tag f al sgn s v)]) = Some t /\
    read_integer (o_base (opts_of f)) (used_sep F f) (used_fill F al) t = Some (shown_value f s v).
Proof.
  intros df cn qs cat' o order fs ls F_of gs_of rep_of tag f al sgn s v HC Hord -> HE HF Hv HA HO HR F HL.
  set (ls := flat_map leaves (flat_map with_facets qs ++ fs)) in *. set (look := fun c => facet_for df ls c tag) in *.
  set (x := int_printable df F_of tag f al sgn s v). set (r := request_of F (gs_of look) (rep_of look) f al sgn s v).
  pose proof (C64_integer df cn None F_of gs_of rep_of tag f al sgn s v ls HE HF Hv HA HO HR) as HS. cbv zeta in HS. fold look F x r in HS.
  exists (int_text r). split.
  - destruct (sy_print_ok df cn None c_to_string _ Rvalue qs cat' o false order (map (AFpe false) fs ++ map APrintable [x]) fs [x] [whole (int_text r) (65536 * int_text_width r)] to_string_keeps HC) as (w & Hw & ->).
    + apply separate_ok. exists (repeat false (length fs)). split; [apply repeat_length|]. f_equal. clear. induction fs as [|q fs IH]; [reflexivity|]. cbn. rewrite <- IH. reflexivity.
    + exact Hord.
    + constructor; [exact HS|constructor].
    + cbn [map] in Hw. rewrite Hw. cbn [map concat d_text whole]. rewrite !app_nil_r. reflexivity.
  - destruct (HR look) as (HS' & _). destruct (C72_integer F (gs_of look) (rep_of look) f al sgn s v (HF look) Hv HA HO HS' HL) as (p & E & R).
    destruct (C39_integer_text F (gs_of look) (rep_of look) f al sgn s v (HF look) Hv HA HO HS') as (p' & E' & T).
    assert (p' = p) by congruence. subst p'. rewrite T in R. exact R.
Qed.

(* ---- examples ---- *)
(* -1,234,567 to the right of 14 columns with '*', and 0xffffffff (-1 as an int) *)
Example C72_ex : legible F8 (FStatic B10 true 0 0 NegativeOnly false) (Some (mk_align 42 (14 * 65536) ARight)) /\
  option_map (fun p => ops_text (pr_ops p)) (int_print F8 (FStatic B10 true 0 0 NegativeOnly false) (Some (mk_align 42 (14 * 65536) ARight)) true S4 (-1234567)) =
    Some [42; 42; 42; 42; 45; 49; 44; 50; 51; 52; 44; 53; 54; 55] /\
  read_integer 10 [44] [42] [42; 42; 42; 42; 45; 49; 44; 50; 51; 52; 44; 53; 54; 55] = Some (-1234567) /\
  option_map (fun p => ops_text (pr_ops p)) (int_print F8 (FNoPad B16 NegativeOnly true) None true S4 (-1)) = Some [48; 120; 102; 102; 102; 102; 102; 102; 102; 102] /\
  read_integer 16 [] [32] [48; 120; 102; 102; 102; 102; 102; 102; 102; 102] = Some (2 ^ 32 - 1).
Proof. split; [split; [repeat constructor; cbn; congruence|repeat constructor; cbn; congruence|discriminate]|]. repeat split; reflexivity. Qed.

(* to_string(-120000): the conditions hold and the string is "-120000" *)
Example C72_to_string_ex : exists cat' o, let f := FDefault in let F_of := fun _ : Z -> Z => F8 in
  chain Rvalue (to_creator c_to_string) [] = Some (cat', o) /\ legible F8 f None /\
  (let r := request_of F8 gs8 rep8 f None true S4 (-120000) in sep_ok F8 f r /\ reserves F8 f None r /\ 0 <= int_text_width r <= 32767) /\
  sy_print (fun _ => 0) (fun _ => true) o false (fun l => l) [APrintable (int_printable (fun _ => 0) F_of 7 f None true S4 (-120000))] = Some [45; 49; 50; 48; 48; 48; 48].
Proof.
  eexists _, _. cbv zeta. split; [reflexivity|]. split; [split; [constructor|repeat constructor; cbn; congruence|discriminate]|]. split; [|vm_compute; reflexivity].
  split; [vm_compute; auto|]. split; vm_compute; repeat split; auto; discriminate.
Qed.

Print Assumptions C72_integer.
Print Assumptions C72_injective.
Print Assumptions C72_pointer.
Print Assumptions C72_to_string.
