(* strf::to(dest)(args...) and strf::to_string...(args...): include/strf/printing_syntax.hpp,
   include/strf/detail/reserve_policies.hpp, include/strf/to_string.hpp (no tr-string). *)
From Verif Require Import Base WidthModel DestModel PrintModel.

(* strf::no_premeasurements *)
Definition no_pre : pre := mk_pre None None.
(* print_one_printable and print_printables, printable_def.hpp:23-37, 56-72: each printer is
   made without premeasurements and called before the next one is made *)
Fixpoint print_printables (args : list arg) : printer := fun S ops s =>
  match args with
  | [] => Some s
  | a :: args' =>
      do r <- a no_pre ; do s1 <- snd r S ops s ;
      if d_good ops s1 then print_printables args' S ops s1 else Some s1
  end.
(* if constexpr (AddEndOfLine) put(dst, '\n') *)
Definition p_eol (eol : bool) : printer := if eol then p_op (OPut 10) else p_nothing.
(* no_reserve, 101-117, and reserve_given_space, 128-144, differ in how the destination is created *)
Definition print_args (eol : bool) (args : list arg) : printer := p_seq (print_printables args) (p_eol eol).

(* reserve_calc, 150-171 and 189-204: the printers are made as function arguments, in an
   order the language leaves open.  Each argument carries its position; [todo] lists them in
   evaluation order *)
Fixpoint make_in_order (todo : list (nat * arg)) (p : pre) : option (pre * list (nat * printer)) :=
  match todo with
  | [] => Some (p, [])
  | (i, a) :: todo' => do r <- a p ; do r2 <- make_in_order todo' (fst r) ; Some (fst r2, (i, snd r) :: snd r2)
  end.
(* the printer stored for position i in the tuple (printers_tuple.hpp:60-90) *)
Fixpoint lookup (i : nat) (ps : list (nat * printer)) : option printer :=
  match ps with [] => None | (j, p) :: ps' => if (i =? j)%nat then Some p else lookup i ps' end.
(* the tuple called in the order of positions (printers_tuple.hpp:60-90) *)
Fixpoint in_position (n from : nat) (ps : list (nat * printer)) : option (list printer) :=
  match n with
  | O => Some []
  | Datatypes.S n' => do p <- lookup from ps ; do r <- in_position n' (Datatypes.S from) ps ; Some (p :: r)
  end.
(* the size passed to create(), a size_t, and what is then called *)
Definition calc_and_print (eol : bool) (args : list arg) (todo : list (nat * arg)) : option (Z * printer) :=
  do r <- make_in_order todo (mk_pre (Some 0) None) ;
  do ps <- in_position (length args) 0 (snd r) ;
  Some (to_u 64 (accumulated_size (fst r) + (if eol then 1 else 0)), p_seq (call_printers ps) (p_eol eol)).

(* strf::to_string / to_u16string / ..., to_string.hpp:305-325: which destination *)
Definition to_string (eol : bool) (args : list arg) : option (list Z) :=
  do s <- print_args eol args smak smak_ops smak_init ; Some (smak_finish s).
(* to_string.reserve(n)(args...): reserve_policies.hpp, reserve_given_space *)
Definition to_string_reserve (n : nat) (eol : bool) (args : list arg) : option (list Z) :=
  do s <- print_args eol args szmk szmk_ops (szmk_init n) ; Some (szmk_finish s).
(* to_string.reserve_calc()(args...): reserve_policies.hpp:87-226 *)
Definition to_string_calc (eol : bool) (args : list arg) (todo : list (nat * arg)) : option (list Z) :=
  do r <- calc_and_print eol args todo ;
  do s <- snd r szmk szmk_ops (szmk_init (Z.to_nat (fst r))) ; Some (szmk_finish s).
(* strf::append(str): the capacity reserved does not show *)
Definition append_to (str : list Z) (eol : bool) (args : list arg) : option (list Z) :=
  do s <- print_args eol args sapp sapp_ops (sapp_init str) ; Some (sapp_finish s).
(* append(str).reserve_calc()(args...) *)
Definition append_calc (str : list Z) (eol : bool) (args : list arg) (todo : list (nat * arg)) : option (list Z) :=
  do r <- calc_and_print eol args todo ;
  do s <- snd r sapp sapp_ops (sapp_init str) ; Some (sapp_finish s).
