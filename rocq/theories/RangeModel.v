(* Ranges: include/strf/detail/printable_types/range.hpp.
   A range is the list of its elements, each one a printable argument: *it for range and
   separated_range, value_fmt_type_adapted_{{*it}, fmt_} for the fmt_ ones, op_ of it for the
   transformed ones.  The iterators are assumed to give the same elements each time the
   range is traversed. *)
From Verif Require Import Base WidthModel DestModel CsetModel WCalcModel PrintModel StringModel ToModel.

(* print_one_printable, printable_def.hpp:27-37 *)
Definition print_one (a : arg) : printer := fun S ops s => do r <- a no_pre ; snd r S ops s.
(* PreMeasurements::size_demanded, something_demanded: premeasurements.hpp:183-216 *)
Definition size_demanded (p : pre) : bool := match p_size p with Some _ => true | None => false end.
(* premeasurements.hpp:203 *)
Definition something_demanded (p : pre) : bool :=
  size_demanded p || match p_width p with Some _ => true | None => false end.

(* range_printer::operator(), 145-152; 315-324; 482-490 *)
Fixpoint p_range (args : list arg) : printer := fun S ops s =>
  match args with
  | [] => Some s
  | a :: args' => if d_good ops s then do s1 <- print_one a S ops s ; p_range args' S ops s1 else Some s
  end.
(* the loop of do_premeasurements_, 135-141 (there without count), 217-223: count is a size_t *)
Fixpoint measure_elements (args : list arg) (count : Z) (p : pre) : option (pre * Z) :=
  match args with
  | [] => Some (p, count)
  | a :: args' =>
      if has_remaining_width p || size_demanded p then
        do r <- a p ; measure_elements args' (to_u 64 (count + 1)) (fst r)
      else Some (p, count)
  end.
(* range_printer, 96-152; fmt_range_printer, 256-324; transformed_range_printer, 431-490 *)
Definition range_arg (args : list arg) : arg := fun p =>
  do p1 <- (if something_demanded p then do r <- measure_elements args 0 p ; Some (fst r) else Some p) ;
  Some (p1, p_range args).

(* separated_range_printer::operator(), 240-252; 417-429; 577-588 *)
Fixpoint p_sep_rest (sep : list Z) (args : list arg) : printer := fun S ops s =>
  match args with
  | [] => Some s
  | a :: args' =>
      if d_good ops s then
        do s1 <- write ops s sep ; do s2 <- print_one a S ops s1 ; p_sep_rest sep args' S ops s2
      else Some s
  end.
(* separated_range_printer::operator(), range.hpp *)
Definition p_sep_range (sep : list Z) (args : list arg) : printer := fun S ops s =>
  match args with
  | [] => Some s
  | a :: args' => do s1 <- print_one a S ops s ; p_sep_rest sep args' S ops s1
  end.
(* the width of the separators *)
Definition add_separators_width (w : wcalc) (b : cset) (sep : list Z) (count : Z) (p : pre) : option pre :=
  do rem <- remaining_width p ; do dw <- wc_str_width w b rem sep ;
  do tw <- w_sat_mul_u64 dw (to_u 64 (count - 1)) ; checked_add_width tw p.
(* the size part of range.hpp's do_premeasurements_ for separators *)
Definition add_separators_size (sep : list Z) (count : Z) (p : pre) : option pre :=
  if size_demanded p then add_size (to_u 64 (to_u 64 (count - 1) * to_u 64 (zlen sep))) p else Some p.
(* separated_range_printer::do_premeasurements_, 209-236 *)
Definition sep_premeasure (w : wcalc) (b : cset) (sep : list Z) (args : list arg) (p : pre) : option pre :=
  do r <- measure_elements args 0 p ;
  let (p1, count) := (r : pre * Z) in
  if (count <? 2) || (negb (size_demanded p1) && negb (has_remaining_width p1)) then Some p1
  else do p2 <- add_separators_width w b sep count p1 ; add_separators_size sep count p2.
(* fmt_separated_range_printer, 389-415, and sep_transformed_range_printer, 549-575 *)
Definition fmt_sep_premeasure (w : wcalc) (b : cset) (sep : list Z) (args : list arg) (p : pre) : option pre :=
  do r <- measure_elements args 0 p ;
  let (p1, count) := (r : pre * Z) in
  if count <? 2 then Some p1
  else do p2 <- (if has_remaining_width p1 then add_separators_width w b sep count p1 else Some p1) ;
       add_separators_size sep count p2.
(* [formatted]: fmt_separated_range, or separated_range with a function *)
Definition sep_range_arg (formatted : bool) (w : wcalc) (b : cset) (sep : list Z) (args : list arg) : arg := fun p =>
  do p1 <- (if something_demanded p then
              (if formatted then fmt_sep_premeasure else sep_premeasure) w b sep args p
            else Some p) ;
  Some (p1, p_sep_range sep args).
