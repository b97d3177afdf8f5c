(* Model of include/strf/detail/value_and_format.hpp, include/strf/detail/format_functions.hpp and the
   format-specifier classes of printable_types/float.hpp, string.hpp (int.hpp's are in IntModel.v):
   a value together with the format specifiers mixed into it, and what each format
   function does to that object.
   Simplified: lvalue/rvalue overloads of one function are one function; a template
   argument is a value of type [spec_type]. *)
From Verif Require Import Base WidthModel DigitsModel IntSpec IntModel FloatSpec FloatModel.

(* ---- data held by the specifiers ---- *)
(* float.hpp:112-183: default_float_format, float_format_no_punct, float_format *)
Inductive ffmt := FFDefault | FFNoPunct (f : float_fmt) | FFDyn (f : float_fmt).
Definition float_default : float_fmt := mk_ffmt (-1) 0 NGeneral NegativeOnly false false.   (* 134-139 *)
Definition ff_get (f : ffmt) : float_fmt :=        (* get_float_format *)
  match f with FFDefault => float_default | FFNoPunct f | FFDyn f => f end.
(* string.hpp:20-25 transcoding_policy; the charset is [None] for no_charset_tag *)
Inductive tpolicy := PNone | PUnsafe | PIfDifferent | PAlways.

(* one mixin class, with its data *)
Inductive spec :=
| SInt (f : int_fmt)                          (* int.hpp:184-1110 *)
| SFloat (f : ffmt)                           (* float.hpp:212-707 *)
| SAlign (a : option align_fmt)               (* format_functions.hpp:55-280; None: HasAlignment = false *)
| SQuantity (n : Z)                           (* format_functions.hpp:285-331 *)
| SPrecision (p : option Z)                   (* string.hpp:230-321 *)
| SCharset (c : option nat) (p : tpolicy).    (* string.hpp:47-228 *)
(* the type of a mixin: its data are not part of it *)
Inductive spec_type :=
| TIntDefault | TIntNoPad (b : ibase) | TIntStatic (b : ibase) (punct : bool) | TIntDyn
| TFloatDefault | TFloatNoPunct | TFloatDyn
| TAlign (active : bool) | TQuantity | TPrecision (active : bool) | TCharset (charset : option nat) (p : tpolicy).
(* the class of a format specifier object (value_and_format.hpp:291-306: the template arguments of value_and_format) *)
Definition type_of (s : spec) : spec_type :=
  match s with
  | SInt FDefault => TIntDefault
  | SInt (FNoPad b _ _) => TIntNoPad b
  | SInt (FStatic b p _ _ _ _) => TIntStatic b p
  | SInt (FDyn _ _ _ _ _ _) => TIntDyn
  | SFloat FFDefault => TFloatDefault
  | SFloat (FFNoPunct _) => TFloatNoPunct
  | SFloat (FFDyn _) => TFloatDyn
  | SAlign a => TAlign (match a with Some _ => true | None => false end)
  | SQuantity _ => TQuantity
  | SPrecision p => TPrecision (match p with Some _ => true | None => false end)
  | SCharset c p => TCharset c p
  end.
(* std::is_same on format specifier classes (value_and_format.hpp:15-89) *)
Definition spec_type_eq (a b : spec_type) : {a = b} + {a <> b}.
Proof. repeat decide equality. Defined.

(* ---- the object: value_and_format.hpp:291-464 ---- *)
Record vf (V : Type) := mk_vf { vf_value : V; vf_specs : list spec }.
Arguments mk_vf {V}. Arguments vf_value {V}. Arguments vf_specs {V}.

(* fmt_replace<List, From, To>: value_and_format.hpp:197-231 *)
Definition fmt_replace (from to : spec_type) (ts : list spec_type) : list spec_type :=
  map (fun t => if spec_type_eq from t then to else t) ts.
(* building a mixin of type [t] from one of another object: the converting
   constructors (format_functions.hpp:86-91, 180-184, 298-304; string.hpp:98-114, 258-263,
   303-307; int.hpp:198-201, 407-412, 636-641, 878-883; float.hpp:225-229, 424-429, 577-582).
   [None]: no such constructor, the expression does not compile *)
Definition convert (t : spec_type) (s : spec) : option spec :=
  if spec_type_eq t (type_of s) then Some s
  else match t, s with
       | TAlign true, SAlign None => Some (SAlign (Some default_align))
       | TCharset None p, SCharset None _ => Some (SCharset None p)
       | TCharset (Some c) p, SCharset (Some c') _ => if Nat.eqb c c' then Some (SCharset (Some c) p) else None
       | _, _ => None
       end.
(* value_and_format.hpp:333-363: every mixin constructed from the corresponding one of the source *)
Fixpoint convert_all (ts : list spec_type) (ss : list spec) : option (list spec) :=
  match ts, ss with
  | [], [] => Some []
  | t :: ts', s :: ss' => do x <- convert t s ; do r <- convert_all ts' ss' ; Some (x :: r)
  | _, _ => None
  end.
(* value_and_format(src, tag<Selected>, args...): 365-447, with separate_fmtpair_list
   15-89: the first destination mixin of the selected type is built from the
   arguments, those before and after it from the source's *)
Fixpoint build_selected (sel : spec_type) (new : spec) (ts : list spec_type) (ss : list spec) : option (list spec) :=
  match ts, ss with
  | t :: ts', s :: ss' =>
      if spec_type_eq sel t then do r <- convert_all ts' ss' ; Some (new :: r)
      else do x <- convert t s ; do r <- build_selected sel new ts' ss' ; Some (x :: r)
  | _, _ => None
  end.

(* ---- the format functions ---- *)
Inductive float_call :=
| LPlus | LFillSign | LShowPoint | LPunct | LPrec (n : Z) | LPad0 (n : Z)
| LNotation (n : notation)    (* fixed(), sci(), hex(), float_notation(n), set_float_notation(n) *)
| LGen                        (* gen() *)
| LSet (f : float_fmt) | LSetNoPunct (f : float_fmt) | LSetDefault.
(* format_functions.hpp:54-280 (alignment_format_specifier_fn): fill, <, >, ^, set_alignment_format, clear_alignment_format *)
Inductive align_call := GFill (ch : Z) | GLeft (w : Z) | GRight (w : Z) | GCenter (w : Z) | GSet (a : align_fmt) | GClear.
(* string.hpp: the functions of charset_format_specifier and its converted classes (conv, sani and their unsafe variants) *)
Inductive charset_call := HPolicy (p : tpolicy) | HFrom (c : nat) (p : tpolicy).
(* one call of a format function on the object *)
Inductive fcall :=
| KInt (c : fmt_call) | KFloat (c : float_call) | KAlign (c : align_call) | KMulti (n : Z) | KPrecision (p : Z) | KCharset (c : charset_call).

(* float.hpp:431-444, 584-598 operator+, fill_sign, operator~ *)
Definition ff_set_sign (s : showsign) f := mk_ffmt (ff_precision f) (ff_pad0 f) (ff_notation f) s (ff_showpoint f) (ff_punct f).
(* float.hpp:446-449, 600-603 operator* *)
Definition ff_set_point f := mk_ffmt (ff_precision f) (ff_pad0 f) (ff_notation f) (ff_sign f) true (ff_punct f).
(* float.hpp:451-469, 605-613 operator!, punct *)
Definition ff_set_punct f := mk_ffmt (ff_precision f) (ff_pad0 f) (ff_notation f) (ff_sign f) (ff_showpoint f) true.
(* float.hpp:471-474, 615-618 p *)
Definition ff_set_prec n f := mk_ffmt n (ff_pad0 f) (ff_notation f) (ff_sign f) (ff_showpoint f) (ff_punct f).
(* float.hpp:476-479, 620-623 pad0 *)
Definition ff_set_pad0 n f := mk_ffmt (ff_precision f) n (ff_notation f) (ff_sign f) (ff_showpoint f) (ff_punct f).
(* float.hpp:481-509, 625-654 sci, fixed, gen, hex, float_notation *)
Definition ff_set_notation n f := mk_ffmt (ff_precision f) (ff_pad0 f) n (ff_sign f) (ff_showpoint f) (ff_punct f).
Definition ff_clear_punct f := mk_ffmt (ff_precision f) (ff_pad0 f) (ff_notation f) (ff_sign f) (ff_showpoint f) false.  (* 151-154 *)
(* default_float_format_specifier_fn 230-376, no_punct 430-547, full dynamic 583-686 *)
Definition float_step (f : ffmt) (c : float_call) : ffmt :=
  match c with
  | LPlus | LFillSign | LShowPoint | LPrec _ | LPad0 _ | LNotation _ | LGen =>
      let upd := match c with
                 | LPlus => ff_set_sign PositiveAlso | LFillSign => ff_set_sign FillInsteadOfPositive
                 | LShowPoint => ff_set_point | LPrec n => ff_set_prec n | LPad0 n => ff_set_pad0 n
                 | LNotation n => ff_set_notation n | LGen => ff_set_notation NGeneral | _ => fun f => f end in
      match f with
      | FFDefault => match c with LGen => FFDefault | _ => FFNoPunct (upd float_default) end   (* gen(): 331-342 *)
      | FFNoPunct g => FFNoPunct (upd g)
      | FFDyn g => FFDyn (upd g)
      end
  | LPunct => match f with
              | FFDefault => FFDyn (ff_set_punct float_default)
              | FFNoPunct g | FFDyn g => FFDyn (ff_set_punct g)
              end
  | LSet g => FFDyn g
  | LSetNoPunct g => FFNoPunct (ff_clear_punct g)
  | LSetDefault => FFDefault
  end.
(* alignment_format_specifier_fn<T,true> 93-143 and <T,false> 186-237.  A fill
   character of a char type is converted to char32_t *)
Definition align_step (a : option align_fmt) (c : align_call) : option align_fmt :=
  match c with
  | GFill ch => Some match a with Some d => mk_align (to_u 32 ch) (al_width d) (al_align d) | None => mk_align (to_u 32 ch) 0 ARight end
  | GLeft w => Some match a with Some d => mk_align (al_fill d) w ALeft | None => mk_align 32 w ALeft end
  | GRight w => Some match a with Some d => mk_align (al_fill d) w ARight | None => mk_align 32 w ARight end
  | GCenter w => Some match a with Some d => mk_align (al_fill d) w ACenter | None => mk_align 32 w ACenter end
  | GSet d => Some d
  | GClear => None
  end.
(* safe_cast_size_t, strf_def.hpp:368-382; multi, format_functions.hpp:306-314 *)
Definition multi_count (n : Z) : Z := if n <? 0 then 0 else n.
(* string.hpp:116-181 *)
Definition charset_step (c : option nat) (h : charset_call) : option nat * tpolicy :=
  match h with HPolicy p => (c, p) | HFrom c' p => (Some c', p) end.

(* the new mixin made by a call on mixin [s]; [None]: the call is not a member of
   that class, or does not compile *)
Definition spec_step (s : spec) (c : fcall) : option spec :=
  match s, c with
  | SInt f, KInt c => option_map SInt (call f c)
  | SFloat f, KFloat c => Some (SFloat (float_step f c))
  | SAlign a, KAlign c => Some (SAlign (align_step a c))
  | SQuantity _, KMulti n => Some (SQuantity (multi_count n))
  | SPrecision _, KPrecision p => Some (SPrecision (Some p))
  | SCharset cs _, KCharset h => let r := charset_step cs h in Some (SCharset (fst r) (snd r))
  | _, _ => None
  end.
(* the class whose member function is called: the first base that has it *)
Definition has_member (s : spec) (c : fcall) : bool :=
  match s, c with
  | SInt _, KInt _ | SFloat _, KFloat _ | SAlign _, KAlign _ | SQuantity _, KMulti _
  | SPrecision _, KPrecision _ | SCharset _ _, KCharset _ => true
  | _, _ => false
  end.
(* the base class in which name lookup of the call finds the function (value_and_format.hpp:291-306) *)
Definition find_member (c : fcall) (ss : list spec) : option spec := find (fun s => has_member s c) ss.
(* "data_.x = v; return *this": the mixin is changed in place *)
Fixpoint in_place (c : fcall) (new : spec) (ss : list spec) : list spec :=
  match ss with [] => [] | s :: ss' => if has_member s c then new :: ss' else s :: in_place c new ss' end.
(* a call: in place when the type of the mixin does not change, through
   fmt_replace and the selecting constructor otherwise *)
Definition vf_call {V} (v : vf V) (c : fcall) : option (vf V) :=
  do s <- find_member c (vf_specs v) ;
  do new <- spec_step s c ;
  if spec_type_eq (type_of s) (type_of new) then Some (mk_vf (vf_value v) (in_place c new (vf_specs v)))
  else do r <- build_selected (type_of new) new (fmt_replace (type_of s) (type_of new) (map type_of (vf_specs v))) (vf_specs v) ;
       Some (mk_vf (vf_value v) r).
(* a chain of calls x.f(...).g(...) *)
Fixpoint vf_calls {V} (v : vf V) (cs : list fcall) : option (vf V) :=
  match cs with [] => Some v | c :: cs' => do v' <- vf_call v c ; vf_calls v' cs' end.

(* fmt(x): default specifiers of the printable type (printable_def.hpp:319-330), and
   fmt of a formatted value is that value (332-338) *)
Inductive printable_kind := PInt | PFloat | PString | PChar | PBool | PPtr | PJoin.
(* "using format_specifiers": int.hpp:2246, float.hpp:2585, string.hpp:1735-1738, char.hpp:284-286 and
   336-338, bool.hpp:132, int.hpp:2390, join.hpp:191 *)
Definition default_specs (k : printable_kind) : list spec :=
  match k with
  | PInt => [SInt FDefault; SAlign None]
  | PFloat => [SFloat FFDefault; SAlign None]
  | PString => [SPrecision None; SAlign None; SCharset None PNone]
  | PChar => [SQuantity 1; SAlign None]
  | PBool | PPtr | PJoin => [SAlign None]
  end.
(* value_and_format.hpp:308-316, and strf::fmt (printable_def.hpp:319-330) *)
Definition fmt {V} (k : printable_kind) (v : V) : vf V := mk_vf v (default_specs k).

(* free functions, format_functions.hpp:502-736: each is fmt(value) and one or two calls *)
Inductive free_fn :=
| Fhex | Fdec | Foct | Fbin | Fpunct | Fpad0 (n : Z)
| Ffhex | Ffixed | Ffixed_p (n : Z) | Fsci | Fsci_p (n : Z) | Fgen | Fgen_p (n : Z) | Ffpunct | Ffpad0 (n : Z)
| Fmulti (n : Z) | Ftranscode | Ftranscode_from (c : nat) | Fsani | Fsani_from (c : nat) | Funsafe | Funsafe_from (c : nat)
| Fright (w : Z) | Fright_fill (w ch : Z) | Fleft (w : Z) | Fleft_fill (w ch : Z) | Fcenter (w : Z) | Fcenter_fill (w ch : Z).
(* format_functions.hpp:338-497 and 502-736 *)
Definition free_calls (f : free_fn) : list fcall :=
  match f with
  | Fhex => [KInt CHex] | Fdec => [KInt CDec] | Foct => [KInt COct] | Fbin => [KInt CBin]
  | Fpunct => [KInt CPunct] | Fpad0 n => [KInt (CPad0 n)]
  | Ffhex => [KFloat (LNotation NHex)]
  | Ffixed => [KFloat (LNotation NFixed)] | Ffixed_p n => [KFloat (LNotation NFixed); KFloat (LPrec n)]
  | Fsci => [KFloat (LNotation NScientific)] | Fsci_p n => [KFloat (LNotation NScientific); KFloat (LPrec n)]
  | Fgen => [KFloat LGen] | Fgen_p n => [KFloat LGen; KFloat (LPrec n)]
  | Ffpunct => [KFloat LPunct] | Ffpad0 n => [KFloat (LPad0 n)]
  | Fmulti n => [KMulti n]
  | Ftranscode => [KCharset (HPolicy PIfDifferent)] | Ftranscode_from c => [KCharset (HFrom c PIfDifferent)]
  | Fsani => [KCharset (HPolicy PAlways)] | Fsani_from c => [KCharset (HFrom c PAlways)]
  | Funsafe => [KCharset (HPolicy PUnsafe)] | Funsafe_from c => [KCharset (HFrom c PUnsafe)]
  | Fright w => [KAlign (GRight w)] | Fright_fill w ch => [KAlign (GFill ch); KAlign (GRight w)]
  | Fleft w => [KAlign (GLeft w)] | Fleft_fill w ch => [KAlign (GFill ch); KAlign (GLeft w)]
  | Fcenter w => [KAlign (GCenter w)] | Fcenter_fill w ch => [KAlign (GFill ch); KAlign (GCenter w)]
  end.
(* format_functions.hpp:338-497 and 502-736 *)
Definition free_call {V} (v : vf V) (f : free_fn) : option (vf V) := vf_calls v (free_calls f).

(* printing a formatted integer: printable_def<IntT>::make_printer, int.hpp:2250-2375, picks the printer
   from the types of the two specifiers *)
Definition int_printed (F : int_facets) (v : vf Z) (sgn : bool) (s : isize) : option printed :=
  match vf_specs v with
  | [SInt f; SAlign a] => int_print F f a sgn s (vf_value v)
  | _ => None
  end.
