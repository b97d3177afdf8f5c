(* Model of include/strf/detail/facets/width_calculator.hpp: the four width calculators. *)
From Verif Require Import Base WidthModel UtfSpec GcbTable.

(* ---- fast_width_t, 21-68 ---- *)
(* str_width, 34-50 *)
Definition fast_str_width (limit : Z) (str : list Z) : Z :=
  let nn_limit := if 0 <=? limit then limit else 0 in
  if zlen str <=? Z.shiftr nn_limit 16 then w_of_unsigned (zlen str) else nn_limit.
(* str_width_and_pos, 51-68: width and the units before the returned pointer.
   safe_cast_size_t: the length *)
Definition fast_str_width_and_pos (limit : Z) (str : list Z) : Z * Z :=
  let lim := w_nn_floor limit in
  if zlen str <=? lim then (w_of_unsigned (zlen str), zlen str)
  else (w_of_unsigned lim, lim).

(* ---- width_as_fast_u32len_t, 70-112, and width_as_u32len_t, 114-156: [count] is
   charset.count_codepoints_fast or charset.count_codepoints; it returns the count and
   the source from the returned pointer on ---- *)
(* 83-95, 127-139; count is a ptrdiff_t *)
Definition u32len_str_width (count : list Z -> Z -> option (Z * list Z)) (limit : Z) (str : list Z) : option Z :=
  do r <- count str (w_nn_ceil limit) ; Some (w_sat_cast_signed (fst r)).
(* 97-111, 141-155 *)
Definition u32len_str_width_and_pos (count : list Z -> Z -> option (Z * list Z)) (limit : Z) (str : list Z)
    : option (Z * list Z) :=
  do r <- count str (w_nn_floor limit) ; Some (w_of_signed (fst r), snd r).

(* The assertions on the count that follow the calls of charset.count_codepoints(_fast) above.  They are kept
   apart, so that the functions above are those of a build without assertions as well.
   93 (fast): res.count <= width_max.ceil();  137: res.count <= width_max.floor();  108 and 152: res.count <= lim *)
Definition fast_u32len_str_width_asserts (count : list Z -> Z -> option (Z * list Z)) (limit : Z) (str : list Z) : option bool :=
  do r <- count str (w_nn_ceil limit) ; Some (fst r <=? w_nn_ceil u_max).
(* width_calculator.hpp:137 *)
Definition u32len_str_width_asserts (count : list Z -> Z -> option (Z * list Z)) (limit : Z) (str : list Z) : option bool :=
  do r <- count str (w_nn_ceil limit) ; Some (fst r <=? w_nn_floor u_max).
(* width_calculator.hpp:108, 152 *)
Definition u32len_width_and_pos_asserts (count : list Z -> Z -> option (Z * list Z)) (limit : Z) (str : list Z) : option bool :=
  do r <- count str (w_nn_floor limit) ; Some (fst r <=? w_nn_floor limit).

(* ---- std_width_calc_t ---- *)
(* char32_width, 410-446, in columns *)
Definition char32_width (ch : Z) : Z :=
  if ch <=? 0x115F then if ch <? 0x1100 then 1 else 2
  else if ch <=? 0xFF60 then
    if ch <=? 0xD7A3 then
      if ch <=? 0x303E then
        if ch <=? 0x232A then if ch <? 0x2329 then 1 else 2
        else if ch <? 0x2E80 then 1 else 2
      else if ch <=? 0xA4CF then if ch <? 0x3040 then 1 else 2
      else if ch <? 0xAC00 then 1 else 2
    else if ch <=? 0xFE19 then
      if ch <=? 0xFAFF then if ch <? 0xF900 then 1 else 2
      else if ch <? 0xFE10 then 1 else 2
    else if ch <=? 0xFE6F then if ch <? 0xFE30 then 1 else 2
    else if ch <? 0xFF00 then 1 else 2
  else if ch <=? 0x3FFFD then
    if ch <=? 0x1F9FF then
      if ch <=? 0x1F64F then
        if ch <=? 0xFFE6 then if ch <? 0xFFE0 then 1 else 2
        else if ch <? 0x1F300 then 1 else 2
      else if ch <? 0x1F900 then 1 else 2
    else if ch <=? 0x2FFFD then if ch <? 0x20000 then 1 else 2
    else if ch <? 0x30000 then 1 else 2
  else 1.

(* the states, 190-203 *)
Definition st_initial : Z := 0.
(* width_calculator.hpp:190-203 *)
Definition after_prepend : Z := 1.
(* width_calculator.hpp:190-203 *)
Definition after_core : Z := 2.
(* width_calculator.hpp:190-203 *)
Definition after_ri : Z := Z.lor after_core 4.
(* width_calculator.hpp:190-203 *)
Definition after_xpic : Z := Z.lor after_core 8.
(* width_calculator.hpp:190-203 *)
Definition after_xpic_zwj : Z := Z.lor after_core 16.
(* width_calculator.hpp:190-203 *)
Definition after_hangul : Z := Z.lor after_core 32.
(* width_calculator.hpp:190-203 *)
Definition after_hangul_l : Z := Z.lor after_hangul 64.
(* width_calculator.hpp:190-203 *)
Definition after_hangul_v : Z := Z.lor after_hangul 128.
(* width_calculator.hpp:190-203 *)
Definition after_hangul_t : Z := Z.lor after_hangul 256.
(* width_calculator.hpp:190-203 *)
Definition after_hangul_lv : Z := Z.lor after_hangul 512.
(* width_calculator.hpp:190-203 *)
Definition after_hangul_lvt : Z := Z.lor after_hangul 1024.
(* width_calculator.hpp:190-203 *)
Definition after_poscore : Z := 2048.
(* width_calculator.hpp:190-203 *)
Definition after_cr : Z := 4096.

(* where the code after next_codepoint jumps, 234-251, and ch_width *)
Inductive jump := JCr | JLf | J (l : glabel).
(* width_calculator.hpp:234-251 *)
Definition jump_of (ch : Z) : jump * Z :=
  if ch <=? 0x7E then
    if 0x20 <=? ch then (J GOther, 1)
    else if 0x0D =? ch then (JCr, 1)
    else if 0x0A =? ch then (JLf, 1)
    else (J GControl, 1)
  else let '(l, w) := gcb_table ch in (J l, w).

(* the test of handle_hangul_lv_or_lvt, 345-347; ch - 0xAC00 is unsigned *)
Definition is_lv (ch : Z) : bool :=
  (ch <=? 0xD788) && (Z.land ch 3 =? 0) && (Z.shiftr (to_u 32 (ch - 0xAC00)) 2 mod 7 =? 0).

(* "if (state == from) { state = to; goto next_codepoint; } if (state != after_prepend)
   { state = to; goto decrement_width; } state = to; goto next_codepoint;" *)
Definition join_or_start (joins : bool) (state to : Z) : Z * bool :=
  if joins then (to, false) else if negb (state =? after_prepend) then (to, true) else (to, false).

(* from a label to next_codepoint (false) or decrement_width (true): 209-214, 253-384 *)
Definition spacing_step (state : Z) : Z * bool :=                                   (* 266-272 *)
  if negb (Z.land state (Z.lor (Z.lor after_prepend after_core) after_poscore) =? 0)
  then (after_poscore, false) else (after_poscore, true).
Definition std_step (state : Z) (j : jump) (ch : Z) : Z * bool :=
  match j with
  | J GOther => if state =? after_prepend then (after_core, false) else (after_core, true) (* 209-214 *)
  | J GZwj => if state =? after_xpic then (after_xpic_zwj, false) else spacing_step state (* 253-258 *)
  | J GExtend => if state =? after_xpic then (state, false) else spacing_step state  (* 260-264 *)
  | J GSpacing => spacing_step state
  | J GPrepend => if state =? after_prepend then (state, false) else (after_prepend, true) (* 274-279 *)
  | J GRI => if state =? after_ri then (after_core, false)                           (* 281-292 *)
             else if negb (state =? after_prepend) then (after_ri, true) else (after_ri, false)
  | J GXPic => join_or_start (state =? after_xpic_zwj) state after_xpic              (* 293-304 *)
  | J GHangulL =>                                                                    (* 305-315 *)
      if state =? after_hangul_l then (state, false)
      else if negb (state =? after_prepend) then (after_hangul_l, true) else (after_hangul_l, false)
  | J GHangulV =>                                                                    (* 316-329 *)
      let mask := Z.land (Z.lnot after_hangul) (Z.lor (Z.lor after_hangul_l after_hangul_v) after_hangul_lv) in
      join_or_start (negb (Z.land state mask =? 0)) state after_hangul_v
  | J GHangulT =>                                                                    (* 330-343 *)
      let mask := Z.land (Z.lnot after_hangul)
          (Z.lor (Z.lor (Z.lor after_hangul_v after_hangul_lv) after_hangul_lvt) after_hangul_t) in
      join_or_start (negb (Z.land state mask =? 0)) state after_hangul_t
  | J GHangulLVorLVT =>                                                              (* 344-371 *)
      join_or_start (state =? after_hangul_l) state (if is_lv ch then after_hangul_lv else after_hangul_lvt)
  | JCr => (after_cr, true)                                                          (* 373-375 *)
  | JLf => if state =? after_cr then (st_initial, false) else (st_initial, true)     (* 377-384 *)
  | J GControl => (st_initial, true)                                                 (* 382-384 *)
  end.

(* std_width_calc_func, 177-385: remaining width, state, number of code points before
   the returned ptr (0 for nullptr) *)
Fixpoint std_width_calc (return_pos : bool) (str : list Z) (pos : nat) (width state : Z) : Z * Z * nat :=
  match str with
  | [] => (width, state, pos)                                                        (* 230-233 *)
  | ch :: rest =>
      let '(j, cols) := jump_of ch in
      let ch_width := cols * 65536 in
      let '(state, decrement) := std_step state j ch in
      if decrement then                                                              (* 216-228 *)
        if width <=? ch_width then
          if negb return_pos then (0, 0, O)
          else if width <? ch_width then (0, 0, pos)
          else std_width_calc return_pos rest (S pos) 0 state
        else std_width_calc return_pos rest (S pos) (width - ch_width) state
      else std_width_calc return_pos rest (S pos) width state
  end.

(* reason == insufficient_output_space, width_calculator.hpp:490, 520 *)
Definition insufficient (r : stop_reason) : bool := match r with Insufficient => true | _ => false end.
(* width_calculator.hpp:478, 507: the buffer of 32 code points *)
Definition buff_size : Z := 32.

Section Std.
(* charset.to_u32().transcode(..., nullptr, none) and transcode_size(..., none) *)
Variable to_u32 : list Z -> Z -> option tc_result.
Variable to_u32_size : list Z -> Z -> option sz_result.

(* str_width, 471-497; [fuel]: iterations *)
Fixpoint std_str_width_loop (fuel : nat) (str : list Z) (limit remaining state : Z) : option Z :=
  match fuel with
  | O => None
  | S fuel =>
      do tr <- to_u32 str buff_size ;
      let '(remaining, state, _) := std_width_calc false (t_out tr) 0 remaining state in
      if (remaining <=? 0) || negb (insufficient (t_reason tr)) then w_sub limit remaining
      else std_str_width_loop fuel (t_rest tr) limit remaining state
  end.
(* width_calculator.hpp:465-500 *)
Definition std_str_width (limit : Z) (str : list Z) : option Z :=
  let limit := if limit <=? 0 then 0 else limit in
  std_str_width_loop (S (length str)) str limit limit 0.

(* str_width_and_pos, 499-531: the width and the source from the returned pointer on *)
Fixpoint std_width_and_pos_loop (fuel : nat) (str : list Z) (limit remaining state : Z) : option (Z * list Z) :=
  match fuel with
  | O => None
  | S fuel =>
      do tr <- to_u32 str buff_size ;
      let '(remaining, state, pos) := std_width_calc true (t_out tr) 0 remaining state in
      if (remaining <=? 0) || negb (insufficient (t_reason tr)) then
        do width <- w_sub limit remaining ;
        if (pos =? length (t_out tr))%nat then Some (width, t_rest tr)
        else do sz <- to_u32_size str (Z.of_nat pos) ; Some (width, s_rest sz)
      else std_width_and_pos_loop fuel (t_rest tr) limit remaining state
  end.
(* width_calculator.hpp:502-545 *)
Definition std_width_and_pos (limit : Z) (str : list Z) : option (Z * list Z) :=
  std_width_and_pos_loop (S (length str)) str limit limit 0.
End Std.
