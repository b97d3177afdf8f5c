(* Model of digit grouping: include/strf/detail/facets/numpunct.hpp:15-416.
   The groups are packed, 5 bits each, in a 32-bit unsigned integer, the group of
   the least significant digits in the lowest bits; above the last group stands
   the marker 2 (last group repeats) or 3 (it does not). *)
From Verif Require Import Base.

Definition grp_bits : Z := 5.               (* numpunct.hpp:22 *)
Definition grp_mask : Z := 31.              (* 25 *)
Definition grps_count_max : Z := 6.         (* 23: 32 / 5 *)
Definition grp_max : Z := 31.               (* 24 *)
Definition repeat_last : Z := 2.            (* 26 *)
Definition dont_repeat_last : Z := 3.       (* 27 *)

(* digits_grouping_iterator, 33-97; the iterator is the packed integer *)
Definition git_current (g : Z) : Z := Z.land g grp_mask.                           (* 56-60 *)
Definition git_advance (g : Z) : Z := Z.shiftr g grp_bits.                         (* 61-65 *)
Definition git_is_last (g : Z) : bool := 0 =? Z.shiftr g (grp_bits + 2).           (* 66-70 *)
Definition git_shall_repeat (g : Z) : bool := Z.shiftr g grp_bits =? repeat_last.  (* 71-76 *)
Definition git_is_final (g : Z) : bool := Z.shiftr g grp_bits =? dont_repeat_last. (* 77-82 *)
Definition git_ended (g : Z) : bool := 0 =? Z.shiftr g 2.                          (* 83-86 *)

(* STRF_ASSERT(! ended()), at the head of current, advance, is_last, shall_repeat_current and
   is_final (58, 63, 68, 74, 80): the outcome is [None] when it fails.  One test is enough for the
   calls made on the same iterator *)
Definition git_live {A} (g : Z) (e : option A) : option A := if git_ended g then None else e.
(* "if (! git.is_last()) git.advance(); ... git.current()", with these assertions *)
Definition git_next (g : Z) : option Z :=
  git_live g (let g := if git_is_last g then g else git_advance g in git_live g (Some g)).

(* reverse_digits_groups, 99-140; the assertion of push_low, 121, is in [distribute_loop] *)
Definition rdg_push_low (r grp : Z) : Z := Z.lor (to_u 32 (Z.shiftl r grp_bits)) grp. (* 118-122 *)
Definition rdg_pop_high (r : Z) : Z := Z.shiftr r grp_bits.                          (* 123-126 *)
Definition rdg_highest (r : Z) : Z := Z.land r grp_mask.                             (* 127-130 *)
Definition rdg_empty (r : Z) : bool := r =? 0.                                       (* 131-134 *)

(* digits_grouping::any_separator, 188-192 *)
Definition any_separator (g digcount : Z) : bool :=
  negb (g =? dont_repeat_last) && (Z.land g grp_mask <? digcount).

(* digits_grouping::separators_count, 193-219; [None]: out of fuel (endless loop)
   or division by zero *)
Fixpoint separators_loop (fuel : nat) (git digcount count : Z) : option Z :=
  match fuel with
  | O => None
  | S fuel' =>
      git_live git
      (let grp := git_current git in
       if digcount <=? grp then Some count
       else if git_is_last git then
         if git_shall_repeat git then
           if grp =? 0 then None else Some (count + (digcount - 1) / grp)
         else Some (count + (if grp <? digcount then 1 else 0))
       else separators_loop fuel' (git_advance git) (digcount - grp) (count + 1))
  end.
(* numpunct.hpp:193-219 digits_grouping::separators_count *)
Definition separators_count (g digcount : Z) : option Z :=
  if g =? 0 then None                                   (* STRF_ASSERT(grps_ != 0), 197 *)
  else if digcount <=? 1 then Some 0
  else if git_ended g then Some 0
  else separators_loop 32 g digcount 0.

(* digits_distribution, 142-147 *)
Record distribution := mk_dist { dist_low : Z; dist_middle : Z; dist_highest : Z }.

(* digits_grouping::distribute, 224-253; [None] as above *)
Fixpoint distribute_loop (fuel : nat) (git low digcount : Z) : option distribution :=
  match fuel with
  | O => None
  | S fuel' =>
      git_live git
      (let grp := git_current git in
       if digcount <=? grp then Some (mk_dist low 0 digcount)
       else if negb ((0 <? grp) && (grp <=? grp_max)) then None        (* push_low, 121 *)
       else
         let low := rdg_push_low low grp in
         if git_shall_repeat git then
           if grp =? 0 then None
           else Some (mk_dist low ((digcount - 1) / grp) (1 + (digcount - 1) mod grp))
         else if git_is_final git then Some (mk_dist low 0 (digcount - grp))
         else distribute_loop fuel' (git_advance git) low (digcount - grp))
  end.
(* numpunct.hpp:224-253 digits_grouping::distribute *)
Definition distribute (g digcount : Z) : option distribution :=
  if g =? 0 then None                                   (* STRF_ASSERT(grps_ != 0), 227 *)
  else if git_ended g then Some (mk_dist 0 0 digcount)
  else distribute_loop 32 g 0 digcount.

(* digits_grouping::digits_grouping(), 164-167 *)
Definition grouping_empty : Z := dont_repeat_last.

(* ctor2_, 275-294, and the variadic constructor 169-175; [None] when one of the
   assertions (272-306: sizes, number of groups) does not hold *)
Fixpoint ctor2 (args : list Z) : option Z :=
  match args with
  | [] => Some dont_repeat_last
  | [last] =>
      if last =? -1 then Some dont_repeat_last
      else if (0 <? last) && (last <=? grp_max) then
        Some (Z.lor (to_u 32 (Z.shiftl repeat_last grp_bits)) last)
      else None
  | g0 :: rest =>
      if (0 <? g0) && (g0 <=? grp_max) then
        do r <- ctor2 rest ; Some (Z.lor g0 (to_u 32 (Z.shiftl r grp_bits)))
      else None
  end.
(* groups_count_, 295-301, and ctor_, 302-307 *)
Definition groups_count (args : list Z) : Z :=
  if last args 0 =? -1 then zlen args - 1 else zlen args.
(* numpunct.hpp:172-178, 265-307: the constructor from numbers, with its assertions *)
Definition grouping_of_args (args : list Z) : option Z :=
  if groups_count args <=? grps_count_max then ctor2 args else None.

(* digits_grouping_creator, 319-394: reverse_grps_, failed_ *)
Record creator := mk_creator { cr_rev : Z; cr_failed : bool }.
(* numpunct.hpp:319-394: default member initialisers *)
Definition creator_init : creator := mk_creator 0 false.
Definition enough_space (c : creator) : bool := cr_rev c <? Z.shiftl 1 ((grps_count_max - 1) * grp_bits). (* 386-389 *)
Definition push_high (c : creator) (grp : Z) : creator :=                             (* 330-337 *)
  if cr_failed c || (grp <? 1) || (grp_max <? grp) || negb (enough_space c)
  then mk_creator (cr_rev c) true
  else mk_creator (Z.lor (to_u 32 (Z.shiftl (cr_rev c) grp_bits)) grp) (cr_failed c).
(* the loop "while (reverse_grps_) { grps = (grps << 5) | low group; ... }", 359-362, 378-382 *)
Fixpoint unreverse (fuel : nat) (rev grps : Z) : option Z :=
  if rev =? 0 then Some grps else
  match fuel with
  | O => None
  | S fuel' => unreverse fuel' (Z.shiftr rev grp_bits)
                 (Z.lor (to_u 32 (Z.shiftl grps grp_bits)) (Z.land rev grp_mask))
  end.
Definition finish_no_more_sep (c : creator) : option Z :=                              (* 353-364 *)
  if cr_failed c || (cr_rev c =? 0) then Some grouping_empty
  else unreverse 32 (cr_rev c) dont_repeat_last.
(* 372-377: skip the groups equal to the highest one *)
Fixpoint skip_equal (fuel : nat) (rev highest : Z) : option Z :=
  if rev =? 0 then Some rev else
  match fuel with
  | O => None
  | S fuel' => if Z.land rev grp_mask =? highest then skip_equal fuel' (Z.shiftr rev grp_bits) highest
               else Some rev
  end.
Definition finish (c : creator) : option Z :=                                          (* 366-384 *)
  if cr_failed c || (cr_rev c =? 0) then Some grouping_empty
  else
    let highest := Z.land (cr_rev c) grp_mask in
    let grps := Z.lor (to_u 32 (Z.shiftl repeat_last grp_bits)) highest in
    do rev <- skip_equal 32 (Z.shiftr (cr_rev c) grp_bits) highest ;
    unreverse 32 rev grps.

(* digits_grouping(const char ptr), 398-416.  The argument is the units before the
   terminating NUL; a unit >= 0x80 is a char with the top bit set. *)
Fixpoint of_str_loop (str : list Z) (c : creator) : option Z :=
  match str with
  | [] => finish c
  | ch :: rest =>
      if ch =? 0 then finish c
      else if negb (Z.land ch 0x80 =? 0) then finish_no_more_sep c
      else of_str_loop rest (push_high c ch)
  end.
(* numpunct.hpp:398-416 digits_grouping(const char ptr) *)
Definition grouping_of_str (str : list Z) : option Z := of_str_loop str creator_init.
