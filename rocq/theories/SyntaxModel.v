(* The printing syntax: strf::to(...), strf::to_string, strf::append(...) ... .with(...).reserve(...)(args...):
   include/strf/printing_syntax.hpp, include/strf/detail/separate_args_and_print.hpp,
   include/strf/detail/reserve_policies.hpp:101-420, include/strf/detail/printing_helpers.hpp:106-166 (which
   printable_def or overrider prints an argument), include/strf/detail/printable_types/facets_pack.hpp.
   [None]: the expression does not compile (or, when printing, undefined behaviour). *)
From Verif Require Import Base WidthModel DestModel PrintModel StringModel ToModel CsetModel TrModel PackSpec PackModel.

(* ---- destination creators ---- *)
(* a destination with its initial state and what finish() returns *)
Record dest_desc (Res : Type) := mk_dest_desc {
  dd_state : Type; dd_ops : dest_ops dd_state; dd_init : dd_state; dd_finish : dd_state -> Res }.
Arguments mk_dest_desc {Res}. Arguments dd_state {Res}. Arguments dd_ops {Res}. Arguments dd_init {Res}. Arguments dd_finish {Res}.
(* create() gives a destination_type; create(n), if there is one, a sized_destination_type;
   cr_same: both are the same type *)
Record creator (Res : Type) := mk_creator { cr_unsized : dest_desc Res; cr_sized : option (Z -> dest_desc Res); cr_same : bool }.
Arguments mk_creator {Res}. Arguments cr_unsized {Res}. Arguments cr_sized {Res}. Arguments cr_same {Res}.
(* dest_type dst{creator.create(...)}; print; return finish(dst): reserve_policies.hpp:107-117, 134-143, 159-170 *)
Definition on_dest {Res} (D : dest_desc Res) (p : printer) : option Res :=
  do s <- p (dd_state D) (dd_ops D) (dd_init D) ; Some (dd_finish D s).

(* ---- the object: printing_syntax.hpp:453-577 ---- *)
Inductive reserving := NoReserve | GivenSpace (n : Z) | CalcSize.
(* printing_syntax.hpp:453-577 *)
Record syntax (Res : Type) := mk_syntax { sy_creator : creator Res; sy_policy : reserving; sy_facets : list fpe }.
Arguments mk_syntax {Res}. Arguments sy_creator {Res}. Arguments sy_policy {Res}. Arguments sy_facets {Res}.
(* to(...), to_string, append(...): make_printing_syntax(creator), 579-586 *)
Definition to_creator {Res} (c : creator Res) : syntax Res := mk_syntax c NoReserve [].
(* the object expression a member function is called on; a const rvalue is as a const lvalue *)
Inductive category := Rvalue | Lvalue | ConstLvalue.
(* printing_syntax.hpp: the member functions with, no_reserve, reserve_calc, reserve, reserve_given_space (300-450) *)
Inductive chain_call :=
| QWith (fpes : list fpe) | QNoReserve | QReserveCalc | QReserve (n : Z)
| QReserveGivenSpace (n : Z).   (* reserve_given_space(size_t) *)
(* safe_cast_size_t, strf_def.hpp:368-382 *)
Definition space_of (n : Z) : Z := if n <? 0 then 0 else n.
(* does the creator have create(size_t) (printing_syntax.hpp, detail::has_sized_destination) *)
Definition is_sized {Res} (c : creator Res) : bool := match cr_sized c with Some _ => true | None => false end.
(* a member call: the object it returns and how it is returned.  Creators and facets are
   copyable *)
Definition chain_step {Res} (cat : category) (o : syntax Res) (q : chain_call) : option (category * syntax Res) :=
  match q with
  | QWith [] => match cat with Lvalue => None | _ => Some (cat, o) end        (* 431-449: "this_pss_& with() &" returns an xvalue *)
  | QWith fpes => do l <- merge_1st (sy_facets o) fpes ; Some (Rvalue, mk_syntax (sy_creator o) (sy_policy o) l)    (* 351-404 *)
  | QNoReserve =>
      match sy_policy o, cat with
      | NoReserve, _ => Some (cat, o)                                         (* 185-200 *)
      | _, Rvalue => Some (Rvalue, mk_syntax (sy_creator o) NoReserve (sy_facets o))   (* 79-85 *)
      | _, _ => None                                                          (* 67-77: { dest_creator_, fpack_ } *)
      end
  | QReserveCalc =>
      if is_sized (sy_creator o) then
        match sy_policy o with
        | CalcSize => Some (cat, o)                                           (* 223-239 *)
        | _ => Some (Rvalue, mk_syntax (sy_creator o) CalcSize (sy_facets o)) (* 102-119 *)
        end
      else None
  | QReserve n =>
      if is_sized (sy_creator o) then
        match sy_policy o with
        | GivenSpace _ => None                                                (* 243-313: not a member *)
        | _ => Some (Rvalue, mk_syntax (sy_creator o) (GivenSpace (space_of n)) (sy_facets o))   (* 137-163 *)
        end
      else None
  | QReserveGivenSpace n =>
      match sy_policy o with
      | GivenSpace _ =>
          Some (match cat with ConstLvalue => Rvalue | _ => cat end,
                mk_syntax (sy_creator o) (GivenSpace (to_u 64 n)) (sy_facets o))                 (* 276-312 *)
      | _ => None
      end
  end.
(* a chain of member calls *)
Fixpoint chain {Res} (cat : category) (o : syntax Res) (qs : list chain_call) : option (category * syntax Res) :=
  match qs with [] => Some (cat, o) | q :: qs' => do r <- chain_step cat o q ; chain (fst r) (snd r) qs' end.

(* ---- printable arguments ---- *)
(* printable_def<T> of a type: its representative, its overrider category
   printable_overrider_c<representative>, is_overridable, what its make_printer gives with
   the pack, and what the make_printer of overrider facet number v gives *)
Record plain := mk_plain { pl_representative : Z; pl_category : Z; pl_overridable : bool; pl_arg : fpe -> arg; pl_override : Z -> fpe -> arg }.
(* the value of the facet dont_override<Representative>, the default: printable_def.hpp:408-421 *)
Definition dont_override : Z := 0.
(* a printable, or strf::with(child...)(args...) *)
Inductive printable := Plain (p : plain) | Inner (child : list fpe) (args : list printable).
Section Printing.
  Variables (get_default : Z -> Z) (constrainable : Z -> bool).
  (* printable_def_or_facet_getter_selector, printing_helpers.hpp:125-166 *)
  Definition plain_arg (pack : fpe) (p : plain) : arg :=
    if pl_overridable p then
      let v := get_facet get_default (pl_category p) (pl_representative p) pack in
      if v =? dont_override then pl_arg p pack else pl_override p v pack
    else pl_arg p pack.
  (* facets_pack.hpp:47-68 and the static_assert of with(), 76-78 *)
  Fixpoint printable_arg (pack : fpe) (p : printable) : arg :=
    match p with
    | Plain x => plain_arg pack x
    | Inner child args =>
        match inner_pack constrainable pack child with
        | Some pack' => join_arg (map (printable_arg pack') args)
        | None => fun _ => None
        end
    end.

  (* ---- the call: operator(), line, tr, trline (541-576) ---- *)
  Inductive call_arg := AFpe (lvalue : bool) (e : fpe) | APrintable (p : printable) | ATrString (str : list Z).
  (* separate_args_and_print.hpp:38-91: only printables after the first one *)
  Fixpoint only_printables (args : list call_arg) : option (list printable) :=   (* assert_is_printable_t *)
    match args with [] => Some [] | APrintable p :: r => do ps <- only_printables r ; Some (p :: ps) | _ => None end.
  (* args_without_tr::separate_args, 38-91, after the object's own pack *)
  Fixpoint separate_args (args : list call_arg) : option (list fpe * list printable) :=
    match args with
    | AFpe _ e :: r => do x <- separate_args r ; Some (e :: fst x, snd x)
    | _ => do ps <- only_printables args ; Some ([], ps)
    end.
  (* args_with_tr::separate_args, 98-161, and check_tr_string_type: is_fpe<Arg> is false for a reference to
     a pack or to a constrained element (facets_pack.hpp:121-134), which is then taken as the tr-string *)
  Definition is_fpe (lvalue : bool) (e : fpe) : bool := match e with Facet _ _ => true | _ => negb lvalue end.
  (* separate_args_and_print.hpp: args_with_tr, facets, then the tr-string, then printables *)
  Fixpoint separate_tr_args (args : list call_arg) : option (list fpe * list Z * list printable) :=
    match args with
    | AFpe lv e :: r => if is_fpe lv e then do x <- separate_tr_args r ; Some (e :: fst (fst x), snd (fst x), snd x) else None
    | ATrString str :: r => do ps <- only_printables r ; Some ([], str, ps)
    | _ => None
    end.
  (* strf::pack(fpack_, fpes...) *)
  Definition full_pack (own new : list fpe) : fpe := Pack (Pack own :: new).
  (* the arguments with their positions *)
  Definition positions {A} (l : list A) : list (nat * A) := combine (seq 0 (length l)) l.
  (* printing_without_tr_string: reserve_policies.hpp:87-226.  [order]: in what order the function
     arguments of reserve_calculated_size_and_call_printables are evaluated *)
  Definition sy_print {Res} (o : syntax Res) (eol : bool) (order : list (nat * arg) -> list (nat * arg)) (args : list call_arg) : option Res :=
    do x <- separate_args args ;
    let l := map (printable_arg (full_pack (sy_facets o) (fst x))) (snd x) in
    match sy_policy o with
    | NoReserve => on_dest (cr_unsized (sy_creator o)) (print_args eol l)
    | GivenSpace n => do D <- cr_sized (sy_creator o) ; on_dest (D n) (print_args eol l)
    | CalcSize => do D <- cr_sized (sy_creator o) ; do r <- calc_and_print eol l (order (positions l)) ; on_dest (D (fst r)) (snd r)
    end.
  (* the charset facet of the destination's character type, looked up for the tag void *)
  Variables (charset_c void_tag : Z) (cset_of : Z -> cset).
  (* printing_with_tr_string: 228-426; with reserve_calc a destination_type is made from create(n), 349, 362 *)
  Definition sy_tr {Res} (o : syntax Res) (eol : bool) (args : list call_arg) : option Res :=
    do x <- separate_tr_args args ;
    let pack := full_pack (sy_facets o) (fst (fst x)) in
    let b := cset_of (get_facet get_default charset_c void_tag pack) in
    let l := map (printable_arg pack) (snd x) in
    match sy_policy o with
    | NoReserve => on_dest (cr_unsized (sy_creator o)) (print_tr eol b (snd (fst x)) l)
    | GivenSpace n => do D <- cr_sized (sy_creator o) ; on_dest (D n) (print_tr eol b (snd (fst x)) l)
    | CalcSize =>
        if cr_same (sy_creator o) then
          do D <- cr_sized (sy_creator o) ; do r <- tr_calc_and_print eol b (snd (fst x)) l ; on_dest (D (fst r)) (snd r)
        else None
    end.
End Printing.

(* ---- the library's creators ---- *)
Definition c_to_string : creator (list Z) :=                         (* to_string.hpp:306-327 *)
  mk_creator (mk_dest_desc smak smak_ops smak_init smak_finish)
    (Some (fun n => mk_dest_desc szmk szmk_ops (szmk_init (Z.to_nat n)) szmk_finish)) false.
Definition c_append (str : list Z) : creator (list Z) :=             (* to_string.hpp:271-304: string_appender in both cases *)
  let D := mk_dest_desc sapp sapp_ops (sapp_init str) sapp_finish in mk_creator D (Some (fun _ => D)) true.
Definition c_cstr (buf : list Z) : creator (option (list Z * (bool * nat) * bool)) :=     (* printing_syntax.hpp:632-660; unsized only *)
  mk_creator (mk_dest_desc cstr cstr_ops (cstr_init buf) cstr_finish) None false.
Definition c_array (buf : list Z) : creator (list Z * option (bool * nat) * bool) :=      (* 662-690; the array's content, then the result *)
  mk_creator (mk_dest_desc cstr cstr_ops (arr_init buf) (fun s => (c_buf s, fst (arr_finish s), snd (arr_finish s)))) None false.
Definition c_cfile (oracle : list nat) : creator (list Z * Z * bool) :=       (* to_cfile.hpp:256-294: a buffer of 64 *)
  mk_creator (mk_dest_desc fwr cf_ops (fwr_init 64 oracle) fwr_finish) None false.
Definition c_streambuf (oracle : list nat) : creator (list Z * Z * bool) :=   (* to_streambuf.hpp:106-131 *)
  mk_creator (mk_dest_desc fwr sb_ops (fwr_init 64 oracle) fwr_finish) None false.
