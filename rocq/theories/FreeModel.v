(* What strf uses in place of the standard library and of compiler builtins when they are missing:
   include/strf/detail/standard_lib_functions.hpp (the branches for STRF_FREESTANDING) and
   include/strf/detail/simple_string_view.hpp.  A pointer is the list of the units from it to the end of
   the memory that may be accessed; reading or writing beyond it is None. *)
From Verif Require Import Base.
From Coq Require Import List.

(* 138-238 slow_countl_zero_ll, the nested ifs as they are *)
Definition slow_countl_zero_ll (x : Z) : Z :=
  if x <=? 0xffffffff then (if x <=? 0xffff then (if x <=? 0xff then (if x <=? 0xf then (if x <=? 3 then (if x =? 0 then (64) else if x <=? 1 then 63 else 62) else if x <=? 7 then 61 else 60) else if x <=? 0x3f then (if x <=? 0x1f then 59 else 58) else if x <=? 0x7f then 57 else 56) else if x <=? 0xfff then (if x <=? 0x3ff then (if x <=? 0x1ff then 55 else 54) else if x <=? 0x7ff then 53 else 52) else if x <=? 0x3fff then (if x <=? 0x1fff then 51 else 50) else if x <=? 0x7fff then 49 else 48) else if x <=? 0xffffff then (if x <=? 0xfffff then (if x <=? 0x3ffff then (if x <=? 0x1ffff then 47 else 46) else if x <=? 0x7ffff then 45 else 44) else if x <=? 0x3fffff then (if x <=? 0x1fffff then 43 else 42) else if x <=? 0x7fffff then 41 else 40) else if x <=? 0xfffffff then (if x <=? 0x3ffffff then (if x <=? 0x1ffffff then 39 else 38) else if x <=? 0x7ffffff then 37 else 36) else if x <=? 0x3fffffff then (if x <=? 0x1fffffff then 35 else 34) else if x <=? 0x7fffffff then 33 else 32) else if x <=? 0xffffffffffff then (if x <=? 0xffffffffff then (if x <=? 0xfffffffff then (if x <=? 0x3ffffffff then (if x <=? 0x1ffffffff then 31 else 30) else if x <=? 0x7ffffffff then 29 else 28) else if x <=? 0x3fffffffff then (if x <=? 0x1fffffffff then 27 else 26) else if x <=? 0x7fffffffff then 25 else 24) else if x <=? 0xfffffffffff then (if x <=? 0x3ffffffffff then (if x <=? 0x1ffffffffff then 23 else 22) else if x <=? 0x7ffffffffff then 21 else 20) else if x <=? 0x3fffffffffff then (if x <=? 0x1fffffffffff then 19 else 18) else if x <=? 0x7fffffffffff then 17 else 16) else if x <=? 0xffffffffffffff then (if x <=? 0xfffffffffffff then (if x <=? 0x3ffffffffffff then (if x <=? 0x1ffffffffffff then 15 else 14) else if x <=? 0x7ffffffffffff then 13 else 12) else if x <=? 0x3fffffffffffff then (if x <=? 0x1fffffffffffff then 11 else 10) else if x <=? 0x7fffffffffffff then 9 else 8) else if x <=? 0xfffffffffffffff then (if x <=? 0x3ffffffffffffff then (if x <=? 0x1ffffffffffffff then 7 else 6) else if x <=? 0x7ffffffffffffff then 5 else 4) else if x <=? 0x3fffffffffffffff then (if x <=? 0x1fffffffffffffff then 3 else 2) else if x <=? 0x7fffffffffffffff then 1 else 0.

(* 293-305 str_length *)
Fixpoint str_length (str : list Z) : option Z :=
  match str with
  | [] => None
  | c :: r => if c =? 0 then Some 0 else do n <- str_length r ; Some (1 + n)
  end.
(* 314-328 str_find: Some None is nullptr, otherwise the offset *)
Fixpoint str_find (p : list Z) (count : nat) (ch : Z) {struct count} : option (option nat) :=
  match count with
  | O => Some None
  | S count' =>
      match p with
      | [] => None
      | c :: r => if c =? ch then Some (Some O) else do x <- str_find r count' ch ; Some (option_map S x)
      end
  end.
(* 331-345 str_equal *)
Fixpoint str_equal (str1 str2 : list Z) (count : nat) {struct count} : option bool :=
  match count with
  | O => Some true
  | S count' =>
      match str1, str2 with
      | c :: r, d :: r' => if negb (c =? d) then Some false else str_equal r r' count'
      | _, _ => None
      end
  end.
(* 264-291 str_fill_n; the memory after the call *)
Fixpoint fill_loop (str : list Z) (count : nat) (value : Z) {struct count} : option (list Z) :=
  match count with
  | O => Some str
  | S count' => match str with [] => None | _ :: r => do r' <- fill_loop r count' value ; Some (value :: r') end
  end.
(* 264-291 *)
Definition str_fill_n (str : list Z) (count value : Z) : option (list Z) := fill_loop str (Z.to_nat count) value.
(* 350-406 copy_n; [conv] is the conversion of the assignment *dst = *src (the identity when the
   sizes are the same, where memcpy is the alternative).  The two areas do not overlap. *)
Fixpoint copy_n (conv : Z -> Z) (src : list Z) (count : nat) (dst : list Z) {struct count} : option (list Z) :=
  match count with
  | O => Some dst
  | S count' =>
      match src, dst with
      | c :: r, _ :: d => do d' <- copy_n conv r count' d ; Some (conv c :: d')
      | _, _ => None
      end
  end.
(* 410-436 lower_bound with an arbitrary comparison; the result is an offset from first *)
Fixpoint lower_bound_gen {T} (fuel : nat) (comp : T -> bool) (a : list T) (first len : Z) : option Z :=
  if len <=? 0 then Some first else
  match fuel with
  | O => None
  | S fuel =>
      let half := len / 2 in
      do e <- nth_error a (Z.to_nat (first + half)) ;
      if comp e then lower_bound_gen fuel comp a (first + half + 1) (len - (half + 1))
      else lower_bound_gen fuel comp a first half
  end.
(* 408-438 lower_bound *)
Definition lower_bound {T} (a : list T) (comp : T -> bool) : option Z := lower_bound_gen (S (length a)) comp a 0 (zlen a).

(* 440-484 int_limits, for a type of [bits] bits *)
Definition int_min_value (signed : bool) (bits : Z) : Z := if signed then to_i bits (Z.shiftl 1 (bits - 1)) else 0.
(* 440-484 *)
Definition int_max_value (signed : bool) (bits : Z) : Z :=
  if signed then to_i bits (Z.shiftr (to_u bits (-1)) 1) else to_u bits (-1).

(* ---- simple_string_view.hpp: begin_ and len_ ---- *)
Record view := mk_view { v_begin : list Z; v_len : Z }.
(* 63-67 (begin, end), 68-72 (str, len); [offset] is end - begin *)
Definition view_range (begin : list Z) (offset : Z) : view := mk_view begin (if 0 <=? offset then offset else 0).
(* 68-72 *)
Definition view_len (str : list Z) (len : Z) : view := mk_view str len.
(* 80-86 (const CharIn* ) *)
Definition view_cstr (str : list Z) : option view := do n <- str_length str ; Some (mk_view str n).
(* 128-137 operator==, 148-156 operator!= *)
Definition view_eq (a b : view) : option bool :=
  if negb (v_len a =? v_len b) then Some false else str_equal (v_begin a) (v_begin b) (Z.to_nat (v_len a)).
(* 148-156 *)
Definition view_ne (a b : view) : option bool :=
  if negb (v_len a =? v_len b) then Some true else do r <- str_equal (v_begin a) (v_begin b) (Z.to_nat (v_len a)) ; Some (negb r).
(* 139-146, 158-172: with a const CharT* on one side *)
Definition view_eq_cstr (a : view) (str : list Z) : option bool := do b <- view_cstr str ; view_eq a b.
(* 158-172 *)
Definition view_ne_cstr (a : view) (str : list Z) : option bool := do b <- view_cstr str ; view_ne a b.
