(* Printers and premeasurements: include/strf/detail/premeasurements.hpp,
   include/strf/detail/printable_def.hpp:40-75, include/strf/measure.hpp,
   include/strf/detail/printers_tuple.hpp. *)
From Verif Require Import Base WidthModel DestModel UtfSpec UtfForms CharsetModel TransSpec SbcsTables SbcsModel PivotModel CsetModel.

(* ---- premeasurements<SizePresence, WidthPresence>, premeasurements.hpp:183-216 ---- *)
(* p_size: size_accumulator::size_, a size_t (116-144), None when SizePresence is no;
   p_width: width_accumulator's (limit_, width_) (20-68), None when WidthPresence is no *)
Record pre := mk_pre { p_size : option Z; p_width : option (Z * Z) }.

(* size_accumulator::add_size, 134-140 (assert) and 168-171 *)
Definition add_size (s : Z) (p : pre) : option pre :=
  match p_size p with
  | None => Some p
  | Some z => if 0 <=? s then Some (mk_pre (Some (to_u 64 (z + s))) (p_width p)) else None
  end.
(* width_accumulator::add_width, 32-35: an int32 addition; 80-83 *)
Definition add_width (w : Z) (p : pre) : option pre :=
  match p_width p with
  | None => Some p
  | Some (limit, width) => do x <- w_add width w ; Some (mk_pre (p_size p) (Some (limit, x)))
  end.
(* checked_add_width, 36-43, 84-87 *)
Definition checked_add_width (w : Z) (p : pre) : option pre :=
  match p_width p with
  | None => Some p
  | Some (limit, width) =>
      if (0 <? w) && (width <? limit) then
        do d <- w_sub limit width ;
        if d <=? w then Some (mk_pre (p_size p) (Some (limit, limit)))
        else do x <- w_add width w ; Some (mk_pre (p_size p) (Some (limit, x)))
      else Some p
  end.
(* accumulated_width, 48-51, 91-94 *)
Definition accumulated_width (p : pre) : Z :=
  match p_width p with None => 0 | Some (limit, width) => if width <=? limit then width else limit end.
(* remaining_width, 52-55, 95-98 *)
Definition remaining_width (p : pre) : option Z :=
  match p_width p with
  | None => Some 0
  | Some (limit, width) => if width <=? limit then w_sub limit width else Some 0
  end.
(* remaining_width_greater_than, 56-59, 99-102 *)
Definition remaining_width_greater_than (w : Z) (p : pre) : option bool :=
  match p_width p with
  | None => Some false
  | Some (limit, width) => do x <- w_add width w ; Some (x <? limit)
  end.
(* has_remaining_width, 60-63, 103-106 *)
Definition has_remaining_width (p : pre) : bool :=
  match p_width p with None => false | Some (limit, width) => width <? limit end.
(* accumulated_ssize, 146-149, 175-178: static_cast<ptrdiff_t> *)
Definition accumulated_ssize (p : pre) : Z := match p_size p with None => 0 | Some z => to_i 64 z end.
(* premeasurements.hpp:140-143, 173-176 *)
Definition accumulated_size (p : pre) : Z := match p_size p with None => 0 | Some z => z end.

(* ---- printers: what operator()(destination&) does, for any destination class ---- *)
Definition printer : Type := forall S : Type, dest_ops S -> S -> option S.
(* a printer that does nothing (reserve_policies.hpp: no end of line) *)
Definition p_nothing : printer := fun S ops s => Some s.
(* one operation on the destination: write, put, flush, ... (output_buffer_functions.hpp, destination.hpp) *)
Definition p_op (o : op) : printer := fun S ops s => run_op ops s o.
(* several operations on the destination, in order *)
Definition p_ops (os : list op) : printer := fun S ops s => run ops s os.
(* a printer called after another one (printers_tuple.hpp:60-90) *)
Definition p_seq (p q : printer) : printer := fun S ops s => do s1 <- p S ops s ; q S ops s1.
(* output_buffer_interchar_copy, output_buffer_functions.hpp:15-47; [same]: the two
   character types are the same one *)
Definition p_copy (same : bool) (str : list Z) : printer := fun S ops s =>
  if same then write ops s str else interchar_copy ops (Datatypes.S (length str)) s str.
(* transcode_flags::none, charset.hpp:36-52 *)
Definition flags_none : flags := mk_flags false false false.
(* strf::transcode(func, ..., dst, ...) or strf::decode_encode(..., dst, ...) according to
   find_transcoder: charset.hpp:1548-1583, 1158-1214 *)
Definition p_transcode (a b : cset) (src : list Z) : printer := fun S ops s =>
  do r <- transcode_into ops a b flags_none s src ; Some (fst r).
(* unsafe_transcode_printer::operator(), string.hpp:1206-1219 *)
Definition p_unsafe (a b : cset) (src : list Z) : printer := fun S ops s =>
  do r <- unsafe_into ops a b flags_none s src ; Some (fst r).
(* call_printers, printable_def.hpp:40-54; print_printables, 56-72, is the same loop *)
Fixpoint call_printers (ps : list printer) : printer := fun S ops s =>
  match ps with
  | [] => Some s
  | p :: ps' => do s1 <- p S ops s ; if d_good ops s1 then call_printers ps' S ops s1 else Some s1
  end.

(* ---- a printable argument: make_printer<CharT>(pre, facets, arg) ---- *)
Definition arg : Type := pre -> option (pre * printer).
(* printers_tuple_impl's constructor, printers_tuple.hpp:131-146, from the first to the last *)
Fixpoint make_printers (args : list arg) (p : pre) : option (pre * list printer) :=
  match args with
  | [] => Some (p, [])
  | a :: args' =>
      do r <- a p ; do r2 <- make_printers args' (fst r) ; Some (fst r2, snd r :: snd r2)
  end.
(* measure_only_width and measure for premeasurements<no, yes>, measure.hpp:35-73 *)
Fixpoint measure_only_width (args : list arg) (p : pre) : option pre :=
  match args with
  | [] => Some p
  | a :: args' =>
      do r <- a p ; if has_remaining_width (fst r) then measure_only_width args' (fst r) else Some (fst r)
  end.
(* measure: 13-33 (no demands), 62-73, 85-96 (all the printers are made, in an order the
   language leaves open: [args] is listed in evaluation order) *)
Definition measure (args : list arg) (p : pre) : option pre :=
  match p_size p, p_width p with
  | None, None => Some p
  | None, Some _ => if has_remaining_width p then measure_only_width args p else Some p
  | Some _, _ => do r <- make_printers args p ; Some (fst r)
  end.

(* ---- an integer argument: int.hpp's printers add pr_width columns and pr_size units ---- *)
From Verif Require Import IntSpec IntModel.
(* pre->add_width(..); pre->add_size(..) and the printer object, as in int.hpp:1110-1135 *)
Definition of_printed (x : option printed) : arg := fun p =>
  do r <- x ;
  do p1 <- add_width (w_of_signed (pr_width r)) p ;
  do p2 <- add_size (pr_size r) p1 ;
  Some (p2, p_ops (pr_ops r)).

(* alignment: the switch common to the aligned printers (string.hpp:712-727, char.hpp:85-98);
   fillcount is an int >= 0 *)
Definition split_fill (al : text_align) (fillcount : Z) : Z * Z :=
  match al with
  | ALeft => (0, fillcount)
  | ACenter => let half := Z.shiftr fillcount 1 in (half, fillcount - half)
  | ARight => (fillcount, 0)
  end.
(* if (count > 0) encode_fill(dst, count, fill) *)
Definition p_fill (cs : charset) (count fill : Z) : printer :=
  if 0 <? count then p_op (cs_fill cs count fill) else p_nothing.
