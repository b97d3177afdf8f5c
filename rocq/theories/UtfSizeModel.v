(* Model of the size functions, of the unsafe functions and of the per code
   point functions of include/strf/detail/utf.hpp (conventions: UtfModel.v). *)
From Verif Require Import Base UtfSpec UtfModel.

(* ------------------------------------------------------------------ *)
(* Parsing a UTF-8 sequence after its first byte without decoding it: whether
   it is valid, and how many units src is advanced.  The condition is repeated
   in utf.hpp:1496-1533, 1559-1594, 1845-1884, 1905-1950, 1992-2022,
   3191-3236, 3266-3300.  [parse8] is the part for ch0 >= 0x80; the
   "continue" variants for UTF-32/UTF-16 and count_codepoints run it for every
   ch0 (then ch0 < 0x80 goes to the last branch and fails there). *)
Definition parse8 (lax : bool) (ch0 : Z) (rest : list Z) : bool * nat :=
  if 0xC0 =? Z.land ch0 0xE0 then
    match rest with
    | ch1 :: _ => if (0xC1 <? ch0) && is_cont ch1 then (true, 1%nat) else (false, 0%nat)
    | [] => (false, 0%nat)
    end
  else if 0xE0 =? ch0 then
    match rest with
    | ch1 :: r1 =>
        if Z.land ch1 0xE0 =? 0xA0 then
          match r1 with
          | ch2 :: _ => if is_cont ch2 then (true, 2%nat) else (false, 1%nat)
          | [] => (false, 1%nat)
          end
        else (false, 0%nat)
    | [] => (false, 0%nat)
    end
  else if 0xE0 =? Z.land ch0 0xF0 then
    match rest with
    | ch1 :: r1 =>
        if is_cont ch1 && first_2_of_3_valid (first_2_of_3 ch0 ch1) lax then
          match r1 with
          | ch2 :: _ => if is_cont ch2 then (true, 2%nat) else (false, 1%nat)
          | [] => (false, 1%nat)
          end
        else (false, 0%nat)
    | [] => (false, 0%nat)
    end
  else
    match rest with
    | ch1 :: r1 =>
        if is_cont ch1 && first_2_of_4_valid (first_2_of_4 ch0 ch1) then
          match r1 with
          | ch2 :: r2 =>
              if is_cont ch2 then
                match r2 with
                | ch3 :: _ => if is_cont ch3 then (true, 3%nat) else (false, 2%nat)
                | [] => (false, 2%nat)
                end
              else (false, 1%nat)
          | [] => (false, 1%nat)
          end
        else (false, 0%nat)
    | [] => (false, 0%nat)
    end.

(* One iteration of a size loop: size to add and units to skip, or stop here
   with invalid_sequence. *)
Inductive zres := ZGood (n : Z) (k : nat) | ZBad.

(* The loop of the size functions.  [over size n limit] is the test that
   returns {size, seq_begin, insufficient_output_space}. *)
Fixpoint sz_loop (step : Z -> list Z -> zres) (over : Z -> Z -> Z -> bool)
    (fuel : nat) (src : list Z) (size limit : Z) : option sz_result :=
  match fuel with
  | O => None
  | S fuel =>
      match src with
      | [] => Some (mk_sz size [] Completed)
      | ch0 :: rest =>
          match step ch0 rest with
          | ZBad => Some (mk_sz size src InvalidSequence)
          | ZGood n k =>
              if over size n limit then Some (mk_sz size src Insufficient)
              else sz_loop step over fuel (skipn k rest) (size + n) limit
          end
      end
  end.

(* [size >= limit] before [++size]; [size + n > limit]; [size + n >= limit]. *)
Definition over_pre (size n limit : Z) : bool := limit <=? size.
(* size + n > limit, the test of the 8-16, 8-8, ... stop variants *)
Definition over_gt (size n limit : Z) : bool := limit <? size + n.
(* size + n >= limit *)
Definition over_ge (size n limit : Z) : bool := limit <=? size + n.
(* no test: the caller knows that the size fits *)
Definition over_no (size n limit : Z) : bool := false.

(* utf8 -> utf32: utf.hpp:1490-1542 (stop), 1557-1596 (continue). *)
Definition zstep_8_32_stop (lax : bool) (ch0 : Z) (rest : list Z) : zres :=
  if 0x80 <=? ch0 then
    let (v, k) := parse8 lax ch0 rest in if v then ZGood 1 k else ZBad
  else ZGood 1 0.
(* utf.hpp:1544-1596 *)
Definition zstep_8_32_cont (lax : bool) (ch0 : Z) (rest : list Z) : zres :=
  let (v, k) := parse8 lax ch0 rest in ZGood 1 k.
(* utf.hpp:1460-1472 *)
Definition size_8_32 (lax stop : bool) (src : list Z) (limit : Z) : option sz_result :=
  if stop then sz_loop (zstep_8_32_stop lax) over_pre (S (length src)) src 0 limit
  else sz_loop (zstep_8_32_cont lax) over_pre (S (length src)) src 0 limit.

(* utf8 -> utf16: utf.hpp:3184-3245 (stop), 3259-3306 (continue): the size of a
   valid 4-byte sequence is 2. *)
Definition zstep_8_16_stop (lax : bool) (ch0 : Z) (rest : list Z) : zres :=
  if 0x80 <=? ch0 then
    let (v, k) := parse8 lax ch0 rest in
    if v then ZGood (if (k =? 3)%nat then 2 else 1) k else ZBad
  else ZGood 1 0.
(* utf.hpp:3247-3306 *)
Definition zstep_8_16_cont (lax : bool) (ch0 : Z) (rest : list Z) : zres :=
  let (v, k) := parse8 lax ch0 rest in ZGood (if v && (k =? 3)%nat then 2 else 1) k.
(* utf.hpp:3158-3170 *)
Definition size_8_16 (lax stop : bool) (src : list Z) (limit : Z) : option sz_result :=
  if stop then sz_loop (zstep_8_16_stop lax) over_gt (S (length src)) src 0 limit
  else sz_loop (zstep_8_16_cont lax) over_gt (S (length src)) src 0 limit.

(* utf8 -> utf8: utf.hpp:1839-1890 (stop): the size is a distance in the source,
   compared with src_limit = src_end - src >= limit ? src + limit : src_end. *)
Definition zstep_8_8_stop (lax : bool) (ch0 : Z) (rest : list Z) : zres :=
  if 0x80 <=? ch0 then
    let (v, k) := parse8 lax ch0 rest in if v then ZGood (1 + Z.of_nat k) k else ZBad
  else ZGood 1 0.
(* utf.hpp:1904-1956 (continue), with [size >= limit] as the test. *)
Definition zstep_8_8_cont (lax : bool) (ch0 : Z) (rest : list Z) : zres :=
  if ch0 <? 0x80 then ZGood 1 0
  else
    let (v, k) := parse8 lax ch0 rest in
    if 0xC0 =? Z.land ch0 0xE0 then ZGood (if v then 2 else 3) k
    else if 0xE0 =? ch0 then ZGood 3 k
    else if 0xE0 =? Z.land ch0 0xF0 then ZGood 3 k
    else ZGood (if v then 4 else 3) k.
(* utf.hpp:1811-1823 *)
Definition size_8_8 (lax stop : bool) (src : list Z) (limit : Z) : option sz_result :=
  if stop then
    let src_limit := if limit <=? zlen src then limit else zlen src in
    sz_loop (zstep_8_8_stop lax) over_gt (S (length src)) src 0 src_limit
  else sz_loop (zstep_8_8_cont lax) over_ge (S (length src)) src 0 limit.

(* utf16 -> utf32: utf.hpp:2377-2403 (continue), 2405-2433 (stop), 2364-2376. *)
Definition zstep_16_32_cont (ch : Z) (rest : list Z) : zres :=
  match rest with
  | ch2 :: _ => if is_high_surrogate ch && is_low_surrogate ch2 then ZGood 1 1 else ZGood 1 0
  | [] => ZGood 1 0
  end.
(* utf.hpp:2405-2433 *)
Definition zstep_16_32_stop (ch : Z) (rest : list Z) : zres :=
  if is_surrogate ch then
    match rest with
    | ch2 :: _ => if is_high_surrogate ch && is_low_surrogate ch2 then ZGood 1 1 else ZBad
    | [] => ZBad
    end
  else ZGood 1 0.
(* utf.hpp:2364-2376 *)
Definition size_16_32 (lax stop : bool) (src : list Z) (limit : Z) : option sz_result :=
  if negb lax && stop then sz_loop zstep_16_32_stop over_pre (S (length src)) src 0 limit
  else sz_loop zstep_16_32_cont over_pre (S (length src)) src 0 limit.

(* utf16 -> utf16: utf.hpp:2605-2669. *)
Definition zstep_16_16 (stop_inv : bool) (ch : Z) (rest : list Z) : zres :=
  if is_surrogate ch then
    match rest with
    | ch2 :: _ => if is_high_surrogate ch && is_low_surrogate ch2 then ZGood 2 1
                  else if stop_inv then ZBad else ZGood 1 0
    | [] => if stop_inv then ZBad else ZGood 1 0
    end
  else ZGood 1 0.
(* utf.hpp:2605-2668 *)
Definition size_16_16 (lax stop : bool) (src : list Z) (limit : Z) : option sz_result :=
  let stop_inv := negb lax && stop in
  let has_limit := limit <? zlen src in
  let src_limit := if limit <=? zlen src then limit else zlen src in
  sz_loop (zstep_16_16 stop_inv) (if has_limit then over_gt else over_no)
    (S (length src)) src 0 src_limit.

(* utf16 -> utf8: utf.hpp:3466-3500 (stop). *)
Definition zstep_16_8_stop (ch : Z) (rest : list Z) : zres :=
  if ch <? 0x80 then ZGood 1 0
  else if ch <? 0x800 then ZGood 2 0
  else if is_surrogate ch then
    match rest with
    | ch2 :: _ => if is_high_surrogate ch && is_low_surrogate ch2 then ZGood 4 1 else ZBad
    | [] => ZBad
    end
  else ZGood 3 0.
(* utf.hpp:3502-3538 (continue): this loop also looks at size == limit. *)
Definition zstep_16_8_cont (ch : Z) (rest : list Z) : Z * nat :=
  if ch <? 0x80 then (1, 0%nat)
  else if ch <? 0x800 then (2, 0%nat)
  else match rest with
       | ch2 :: _ => if is_high_surrogate ch && is_low_surrogate ch2 then (4, 1%nat) else (3, 0%nat)
       | [] => (3, 0%nat)
       end.
(* utf.hpp:3502-3538 *)
Fixpoint sz_loop_16_8 (fuel : nat) (src : list Z) (size limit : Z) : option sz_result :=
  match fuel with
  | O => None
  | S fuel =>
      match src with
      | [] => Some (mk_sz size [] Completed)
      | ch :: rest =>
          let (n, k) := zstep_16_8_cont ch rest in
          let size' := size + n in
          let rest' := skipn k rest in
          if limit <=? size' then
            if limit <? size' then Some (mk_sz size src Insufficient)
            else match rest' with
                 | _ :: _ => Some (mk_sz size' rest' Insufficient)
                 | [] => Some (mk_sz size' [] Completed)
                 end
          else sz_loop_16_8 fuel rest' size' limit
      end
  end.
(* utf.hpp:3452-3464 *)
Definition size_16_8 (lax stop : bool) (src : list Z) (limit : Z) : option sz_result :=
  if negb lax && stop then sz_loop zstep_16_8_stop over_gt (S (length src)) src 0 limit
  else sz_loop_16_8 (S (length src)) src 0 limit.

(* utf32 -> utf8: utf.hpp:2152-2213. *)
Definition b2z (b : bool) : Z := if b then 1 else 0.
(* utf.hpp:2185-2213 *)
Definition zstep_32_8 (stop strict : bool) (ch : Z) (_ : list Z) : zres :=
  let invalid := (strict && is_surrogate ch) || (0x110000 <=? ch) in
  if stop && invalid then ZBad
  else ZGood (if invalid then 3
              else 1 + b2z (0x80 <=? ch) + b2z (0x800 <=? ch) + b2z (0x10000 <=? ch)) 0.
(* utf.hpp:2152-2213 *)
Definition size_32_8 (lax stop : bool) (src : list Z) (limit : Z) : option sz_result :=
  let stop_on_limit := limit <? zlen src * 4 in
  sz_loop (zstep_32_8 stop (negb lax)) (if stop_on_limit then over_gt else over_no)
    (S (length src)) src 0 limit.

(* utf32 -> utf16: utf.hpp:2802-2867. *)
Definition zstep_32_16 (stop strict : bool) (ch : Z) (_ : list Z) : zres :=
  let invalid := (strict && is_surrogate ch) || (0x110000 <=? ch) in
  if stop && invalid then ZBad
  else ZGood (if invalid then 1 else if ch <? 0x10000 then 1 else 2) 0.
(* utf.hpp:2802-2867 *)
Definition size_32_16 (lax stop : bool) (src : list Z) (limit : Z) : option sz_result :=
  let stop_on_limit := limit <? zlen src * 2 in
  sz_loop (zstep_32_16 stop (negb lax)) (if stop_on_limit then over_gt else over_no)
    (S (length src)) src 0 limit.

(* utf32 -> utf32: utf.hpp:2994-3047.  [*src >= 0x110000] there compares the
   source character type: [sgn] says that it is signed (wchar_t on Linux), so
   that a unit with the top bit set is negative in that comparison. *)
Definition as_src_char (sgn : bool) (c : Z) : Z := if sgn then to_i 32 c else c.
(* utf.hpp:2994-3047 *)
Definition zstep_32_32 (sgn strict : bool) (ch : Z) (_ : list Z) : zres :=
  if (0x110000 <=? as_src_char sgn ch) || (strict && is_surrogate ch) then ZBad else ZGood 1 0.
(* over: src >= src_limit *)
Definition size_32_32 (sgn lax stop : bool) (src : list Z) (limit : Z) : option sz_result :=
  if negb stop then
    if zlen src <=? limit then Some (mk_sz (zlen src) [] Completed)
    else Some (mk_sz limit (skipn (Z.to_nat limit) src) Insufficient)
  else if zlen src <=? limit then
    sz_loop (zstep_32_32 sgn (negb lax)) over_no (S (length src)) src 0 limit
  else sz_loop (zstep_32_32 sgn (negb lax)) over_pre (S (length src)) src 0 limit.

(* ------------------------------------------------------------------ *)
(* Unsafe functions.  Reading or advancing past src_end is [None]. *)

(* One iteration of utf8 -> utf32 unsafe_transcode: utf.hpp:1618-1645. *)
Definition ustep_8_32 (ch0 : Z) (rest : list Z) : option (list Z * nat) :=
  if ch0 <? 0x80 then Some ([c32 ch0], 0%nat)
  else if ch0 <? 0xE0 then
    match rest with ch1 :: _ => Some ([c32 (utf8_decode2 ch0 ch1)], 1%nat) | _ => None end
  else if ch0 <? 0xF0 then
    match rest with ch1 :: ch2 :: _ => Some ([c32 (utf8_decode3 ch0 ch1 ch2)], 2%nat) | _ => None end
  else
    match rest with
    | ch1 :: ch2 :: ch3 :: _ => Some ([c32 (utf8_decode4 ch0 ch1 ch2 ch3)], 3%nat) | _ => None end.

(* utf8 -> utf16: utf.hpp:3322-3352 *)
Definition ustep_8_16 (ch0 : Z) (rest : list Z) : option (list Z * nat) :=
  if ch0 <? 0x80 then Some ([c16 ch0], 0%nat)
  else if ch0 <? 0xE0 then
    match rest with ch1 :: _ => Some ([c16 (utf8_decode2 ch0 ch1)], 1%nat) | _ => None end
  else if ch0 <? 0xF0 then
    match rest with ch1 :: ch2 :: _ => Some ([c16 (utf8_decode3 ch0 ch1 ch2)], 2%nat) | _ => None end
  else
    match rest with
    | ch1 :: ch2 :: ch3 :: _ =>
        let x := to_u 32 (utf8_decode4 ch0 ch1 ch2 ch3 - 0x10000) in
        Some ([c16 (0xD800 + Z.shiftr x 10); c16 (0xDC00 + Z.land x 0x3FF)], 3%nat)
    | _ => None end.

(* utf16 -> utf32: utf.hpp:2450-2483 *)
Definition ustep_16_32 (lax : bool) (ch : Z) (rest : list Z) : option (list Z * nat) :=
  if negb lax then
    if is_high_surrogate ch then
      match rest with ch2 :: _ => Some ([c32 (join_surrogates ch ch2)], 1%nat) | [] => None end
    else Some ([c32 ch], 0%nat)
  else
    match rest with
    | ch2 :: _ => if is_high_surrogate ch && is_low_surrogate ch2
                  then Some ([c32 (join_surrogates ch ch2)], 1%nat) else Some ([c32 ch], 0%nat)
    | [] => Some ([c32 ch], 0%nat)
    end.

(* utf16 -> utf8: utf.hpp:3562-3607 (lax), 3609-3663 (strict) *)
Definition ustep_16_8 (lax : bool) (ch : Z) (rest : list Z) : option (list Z * nat) :=
  if ch <? 0x80 then Some ([c8 ch], 0%nat)
  else if ch <? 0x800 then Some (bytes2 ch, 0%nat)
  else if lax then
    match rest with
    | ch2 :: _ => if negb (is_high_surrogate ch) || negb (is_low_surrogate ch2)
                  then Some (bytes3 ch, 0%nat) else Some (bytes4 (join_surrogates ch ch2), 1%nat)
    | [] => Some (bytes3 ch, 0%nat)
    end
  else if negb (is_high_surrogate ch) then Some (bytes3 ch, 0%nat)
  else match rest with
       | ch2 :: _ => Some (bytes4 (join_surrogates ch ch2), 1%nat) | [] => None end.

(* utf32 -> utf8: utf.hpp:2233-2265.  A code point above 0x10FFFF writes
   nothing, but is required to have 4 units of space: modelled by the separate
   required size in the loop below. *)
Definition ustep_32_8 (ch : Z) (_ : list Z) : option (list Z * nat) :=
  if ch <? 0x80 then Some ([c8 ch], 0%nat)
  else if ch <? 0x800 then Some (bytes2 ch, 0%nat)
  else if ch <? 0x10000 then Some (bytes3 ch, 0%nat)
  else if ch <? 0x110000 then Some (bytes4 ch, 0%nat)
  else Some ([], 0%nat).

(* utf32 -> utf16: utf.hpp:2881-2900 *)
Definition ustep_32_16 (ch : Z) (_ : list Z) : option (list Z * nat) :=
  if ch <? 0x10000 then Some ([c16 ch], 0%nat)
  else let s := ch - 0x10000 in
       Some ([c16 (Z.lor 0xD800 (Z.shiftr s 10)); c16 (Z.lor 0xDC00 (Z.land s 0x3FF))], 0%nat).

(* The loop of the six unsafe_transcode functions that decode.  The required
   space is the size of what is written, except for utf32 -> utf8 above
   0x10FFFF.  (The early returns for an empty source or destination, e.g.
   utf.hpp:1609-1614, give what the loop gives.) *)
Fixpoint utc_loop (ustep : Z -> list Z -> option (list Z * nat)) (req : Z -> list Z -> Z)
    (fuel : nat) (src : list Z) (space : Z) : option tc_result :=
  match fuel with
  | O => None
  | S fuel =>
      match src with
      | [] => Some (mk_tc [] [] Completed [])
      | ch0 :: rest =>
          do p <- ustep ch0 rest ;
          let (out, k) := p in
          if space <? req ch0 out then Some (mk_tc src [] Insufficient [])
          else
            do r <- utc_loop ustep req fuel (skipn k rest) (space - zlen out) ;
            Some (mk_tc (t_rest r) (out ++ t_out r) (t_reason r) (t_notes r))
      end
  end.
(* the units needed are those written *)
Definition req_len (_ : Z) (out : list Z) : Z := zlen out.
(* utf.hpp:2239-2246 *)
Definition req_32_8 (ch : Z) (_ : list Z) : Z :=
  if ch <? 0x80 then 1 else if ch <? 0x800 then 2 else if ch <? 0x10000 then 3 else 4.

(* utf.hpp:1598-1647 *)
Definition unsafe_8_32 (lax : bool) (src : list Z) (space : Z) :=
  utc_loop ustep_8_32 req_len (S (length src)) src space.
(* utf.hpp:3308-3354 *)
Definition unsafe_8_16 (lax : bool) (src : list Z) (space : Z) :=
  utc_loop ustep_8_16 req_len (S (length src)) src space.
(* utf.hpp:2436-2484 *)
Definition unsafe_16_32 (lax : bool) (src : list Z) (space : Z) :=
  utc_loop (ustep_16_32 lax) req_len (S (length src)) src space.
(* utf.hpp:3540-3663 *)
Definition unsafe_16_8 (lax : bool) (src : list Z) (space : Z) :=
  utc_loop (ustep_16_8 lax) req_len (S (length src)) src space.
(* utf.hpp:2215-2267 *)
Definition unsafe_32_8 (lax : bool) (src : list Z) (space : Z) :=
  utc_loop ustep_32_8 req_32_8 (S (length src)) src space.
(* utf.hpp:2869-2902 *)
Definition unsafe_32_16 (lax : bool) (src : list Z) (space : Z) :=
  utc_loop ustep_32_16 req_len (S (length src)) src space.

(* Largest index <= n that is not a continuation byte (or 0): the loops
   "while (is_utf8_continuation(*p) && p > src) --p". *)
Fixpoint back_up (src : list Z) (n : nat) : nat :=
  match n with
  | O => O
  | S m => if is_cont (nth n src 0) then back_up src m else n
  end.

(* utf8 -> utf8: utf.hpp:1782-1809 *)
Definition unsafe_8_8 (lax : bool) (src : list Z) (space : Z) : option tc_result :=
  if zlen src <=? space then Some (mk_tc [] src Completed [])
  else
    let n := back_up src (Z.to_nat space) in
    Some (mk_tc (skipn n src) (firstn n src) Insufficient []).

(* utf16 -> utf16: utf.hpp:2569-2603 *)
Definition unsafe_16_16 (lax : bool) (src : list Z) (space : Z) : option tc_result :=
  if zlen src <=? space then Some (mk_tc [] src Completed [])
  else
    let count := Z.to_nat space in
    let n := if negb (space =? 0) && is_low_surrogate (nth count src 0)
                && is_high_surrogate (nth (count - 1) src 0) then (count - 1)%nat else count in
    Some (mk_tc (skipn n src) (firstn n src) Insufficient []).

(* utf32 -> utf32: facets/charset.hpp:718-741 (bypass_unsafe_transcode) *)
Definition unsafe_32_32 (lax : bool) (src : list Z) (space : Z) : option tc_result :=
  if zlen src <=? space then Some (mk_tc [] src Completed [])
  else Some (mk_tc (skipn (Z.to_nat space) src) (firstn (Z.to_nat space) src) Insufficient []).

(* Unsafe sizes. *)

(* utf8 -> utf32: utf.hpp:1649-1682. *)
Fixpoint usz_8_32_count (src : list Z) : Z :=
  match src with [] => 0 | c :: r => b2z (negb (is_cont c)) + usz_8_32_count r end.
(* utf.hpp:1649-1682: the loop used when the source is longer than the limit *)
Fixpoint usz_8_32_loop (src : list Z) (size limit : Z) : sz_result :=
  match src with
  | [] => mk_sz size [] Completed
  | c :: r => if limit <=? size then mk_sz size src Insufficient
              else usz_8_32_loop r (size + b2z (negb (is_cont c))) limit
  end.
(* utf.hpp:1649-1682 *)
Definition unsafe_size_8_32 (lax : bool) (src : list Z) (limit : Z) : option sz_result :=
  if zlen src <=? limit then Some (mk_sz (usz_8_32_count src) [] Completed)
  else Some (usz_8_32_loop src 0 limit).

(* utf8 -> utf8: utf.hpp:266-279 *)
Definition unsafe_size_8_8 (lax : bool) (src : list Z) (limit : Z) : option sz_result :=
  if zlen src <=? limit then Some (mk_sz (zlen src) [] Completed)
  else let n := back_up src (Z.to_nat limit) in
       Some (mk_sz (Z.of_nat n) (skipn n src) Insufficient).

(* utf16 -> utf16: utf.hpp:566-583 *)
Definition unsafe_size_16_16 (lax : bool) (src : list Z) (limit : Z) : option sz_result :=
  if zlen src <=? limit then Some (mk_sz (zlen src) [] Completed)
  else
    let l := Z.to_nat limit in
    let n := if (0 <? limit) && is_high_surrogate (nth (l - 1) src 0)
                && is_low_surrogate (nth l src 0) then (l - 1)%nat else l in
    Some (mk_sz (Z.of_nat n) (skipn n src) Insufficient).

(* utf32 -> utf32: utf.hpp:842-853 *)
Definition unsafe_size_32_32 (lax : bool) (src : list Z) (limit : Z) : option sz_result :=
  if zlen src <=? limit then Some (mk_sz (zlen src) [] Completed)
  else Some (mk_sz limit (skipn (Z.to_nat limit) src) Insufficient).

(* Loop of the unsafe size functions: size to add, units to advance (including
   the first one); advancing past src_end is [None]. *)
Fixpoint usz_loop (ustep : Z -> list Z -> Z * nat) (fuel : nat) (src : list Z) (size limit : Z)
    : option sz_result :=
  match fuel with
  | O => None
  | S fuel =>
      match src with
      | [] => Some (mk_sz size [] Completed)
      | ch0 :: rest =>
          let (n, adv) := ustep ch0 rest in
          if limit <? size + n then Some (mk_sz size src Insufficient)
          else if (adv <=? length src)%nat then usz_loop ustep fuel (skipn adv src) (size + n) limit
          else None
      end
  end.

(* utf8 -> utf16: utf.hpp:3356-3381 *)
Definition uszstep_8_16 (ch0 : Z) (_ : list Z) : Z * nat :=
  let x := if ch0 <? 0x80 then 0x09 else if ch0 <? 0xE0 then 0x0A
           else if ch0 <? 0xF0 then 0x0B else 0x14 in
  (Z.shiftr x 3, Z.to_nat (Z.land x 7)).
(* utf.hpp:3356-3381 *)
Definition unsafe_size_8_16 (lax : bool) (src : list Z) (limit : Z) : option sz_result :=
  usz_loop uszstep_8_16 (S (length src)) src 0 limit.

(* utf16 -> utf8: utf.hpp:3665-3693 *)
Definition uszstep_16_8 (ch : Z) (_ : list Z) : Z * nat :=
  let x := if ch <? 0x80 then 0x9 else if ch <? 0x800 then 0xA
           else if is_high_surrogate ch then 0x14 else 0xB in
  (Z.land x 7, Z.to_nat (Z.shiftr x 3)).
(* utf.hpp:3665-3693 *)
Definition unsafe_size_16_8 (lax : bool) (src : list Z) (limit : Z) : option sz_result :=
  if negb lax then usz_loop uszstep_16_8 (S (length src)) src 0 limit
  else sz_loop_16_8 (S (length src)) src 0 limit.

(* utf16 -> utf32: utf.hpp:2486-2520 ([size >= limit] before adding 1). *)
Definition uszstep_16_32 (lax : bool) (ch : Z) (rest : list Z) : Z * nat :=
  if negb lax then (1, if is_high_surrogate ch then 2%nat else 1%nat)
  else (1, match rest with
           | ch2 :: _ => if is_high_surrogate ch && is_low_surrogate ch2 then 2%nat else 1%nat
           | [] => 1%nat end).
(* utf.hpp:2486-2520 *)
Definition unsafe_size_16_32 (lax : bool) (src : list Z) (limit : Z) : option sz_result :=
  usz_loop (uszstep_16_32 lax) (S (length src)) src 0 limit.

(* utf32 -> utf8: utf.hpp:2269-2306: two loops. *)
Definition usz_32_8 (ch : Z) : Z :=
  if ch <? 0x80 then 1 else if ch <? 0x800 then 2 else if ch <? 0x10000 then 3 else 4.
(* utf.hpp:2269-2306: the second loop *)
Fixpoint usz_32_8_second (src : list Z) (size limit : Z) : sz_result :=
  match src with
  | [] => mk_sz size [] Completed
  | ch :: r => let new_size := size + usz_32_8 ch in
               if limit <? new_size then mk_sz size src Insufficient
               else usz_32_8_second r new_size limit
  end.
(* utf.hpp:2269-2306: the first loop *)
Fixpoint usz_32_8_first (src : list Z) (size pre_limit limit : Z) : sz_result :=
  if size <? pre_limit then
    match src with
    | [] => mk_sz size [] Completed
    | ch :: r => usz_32_8_first r (size + usz_32_8 ch) pre_limit limit
    end
  else usz_32_8_second src size limit.
(* utf.hpp:2269-2306 *)
Definition unsafe_size_32_8 (lax : bool) (src : list Z) (limit : Z) : option sz_result :=
  let limit := if limit <=? 0 then 0 else limit in
  Some (usz_32_8_first src 0 (limit - 4) limit).

(* utf32 -> utf16: utf.hpp:2904-2931 *)
Definition usz_32_16 (ch : Z) : Z := 1 + b2z (0x10000 <=? ch).
(* utf.hpp:2904-2931 *)
Fixpoint usz_32_16_loop (has_limit : bool) (src : list Z) (size limit : Z) : sz_result :=
  match src with
  | [] => mk_sz size [] Completed
  | ch :: r => let new_size := size + usz_32_16 ch in
               if has_limit && (limit <? new_size) then mk_sz (new_size - usz_32_16 ch) src Insufficient
               else usz_32_16_loop has_limit r new_size limit
  end.
(* utf.hpp:2904-2931 *)
Definition unsafe_size_32_16 (lax : bool) (src : list Z) (limit : Z) : option sz_result :=
  Some (usz_32_16_loop (negb (zlen src * 2 <=? limit)) src 0 limit).

(* ------------------------------------------------------------------ *)
(* Per code point functions of the charsets. *)

(* utf.hpp:934-942, 943-949 *)
Definition validate8 (ch : Z) : Z :=
  if ch <? 0x80 then 1 else if ch <? 0x800 then 2 else if is_surrogate ch then -1
  else if ch <? 0x10000 then 3 else if ch <? 0x110000 then 4 else -1.
(* encoded_char_size, utf.hpp:938-944 *)
Definition char_size8 (ch : Z) : Z :=
  if ch <? 0x80 then 1 else if ch <? 0x800 then 2 else if ch <? 0x10000 then 3
  else if ch <? 0x110000 then 4 else 3.
(* utf.hpp:2058-2090 *)
Definition encode_char8 (ch : Z) : list Z :=
  if ch <? 0x80 then [c8 ch]
  else if ch <? 0x800 then
    [c8 (Z.lor 0xC0 (Z.shiftr (Z.land ch 0x7C0) 6)); c8 (Z.lor 0x80 (Z.land ch 0x3F))]
  else if ch <? 0x10000 then
    [c8 (Z.lor 0xE0 (Z.shiftr (Z.land ch 0xF000) 12));
     c8 (Z.lor 0x80 (Z.shiftr (Z.land ch 0xFC0) 6)); c8 (Z.lor 0x80 (Z.land ch 0x3F))]
  else if ch <? 0x110000 then
    [c8 (Z.lor 0xF0 (Z.shiftr (Z.land ch 0x1C0000) 18));
     c8 (Z.lor 0x80 (Z.shiftr (Z.land ch 0x3F000) 12));
     c8 (Z.lor 0x80 (Z.shiftr (Z.land ch 0xFC0) 6)); c8 (Z.lor 0x80 (Z.land ch 0x3F))]
  else [c8 0xEF; c8 0xBF; c8 0xBD].
(* utf.hpp:1081-1091, 2719-2737 *)
Definition validate16 (ch : Z) : Z :=
  if is_surrogate ch then -1 else if ch <? 0x10000 then 1 else if ch <? 0x110000 then 2 else -1.
(* encoded_char_size, utf.hpp:1084-1088 *)
Definition char_size16 (ch : Z) : Z := 1 + b2z ((0x10000 <=? ch) && (ch <? 0x110000)).
(* utf.hpp:2719-2737 *)
Definition encode_char16 (ch : Z) : list Z :=
  if ch <? 0x10000 then [c16 ch]
  else if ch <? 0x110000 then
    let s := ch - 0x10000 in
    [c16 (0xD800 + Z.shiftr s 10); c16 (0xDC00 + Z.land s 0x3FF)]
  else [0xFFFD].
(* utf.hpp:1230-1243 *)
Definition validate32 (ch : Z) : Z := if negb (is_surrogate ch) && (ch <? 0x110000) then 1 else -1.
(* encoded_char_size, utf.hpp:1232-1236 *)
Definition char_size32 (ch : Z) : Z := 1.
(* encode_char, utf.hpp:1237-1242 *)
Definition encode_char32 (ch : Z) : list Z := [c32 ch].
(* utf.hpp:961-966: the parameter is a CharT; [sgn]: plain char is signed. *)
Definition decode_unit8 (sgn : bool) (c : Z) : Z :=
  let ch := if sgn then to_i 8 c else c in
  if ch <? 0x80 then to_u 32 ch else 0xFFFD.
(* utf.hpp:1108-1111, 1276-1279 *)
Definition decode_unit16 (c : Z) : Z := c.
(* decode_unit, utf.hpp:1274-1277 *)
Definition decode_unit32 (c : Z) : Z := c.

(* ------------------------------------------------------------------ *)
(* Counting code points: result {count, pointer}. *)

(* utf.hpp:1958-1978 *)
Fixpoint skip_conts (src : list Z) : list Z :=
  match src with [] => [] | c :: r => if is_cont c then skip_conts r else src end.
(* utf.hpp:1958-1978: the loop *)
Fixpoint ccf8_loop (src : list Z) (count max_count : Z) : Z * list Z :=
  match src with
  | [] => (count, [])
  | c :: r => if count <? max_count then
                ccf8_loop r (if negb (is_cont c) then count + 1 else count) max_count
              else (count, src)
  end.
(* utf.hpp:1958-1978 *)
Definition count_fast8 (src : list Z) (max_count : Z) : Z * list Z :=
  let (n, r) := ccf8_loop src 0 max_count in (n, skip_conts r).

(* utf.hpp:1980-2025 (lax_surr = false) *)
Fixpoint cc8_loop (fuel : nat) (src : list Z) (count max_count : Z) : option (Z * list Z) :=
  match fuel with
  | O => None
  | S fuel =>
      match src with
      | [] => Some (count, [])
      | c :: r =>
          if count <? max_count then
            let (_, k) := parse8 false c r in cc8_loop fuel (skipn k r) (count + 1) max_count
          else Some (count, src)
      end
  end.
(* utf.hpp:1980-2025 *)
Definition count8 (src : list Z) (max_count : Z) : option (Z * list Z) :=
  cc8_loop (S (length src)) src 0 max_count.

(* utf.hpp:2672-2695: reads *it while count < max_count; "it" may pass src_end
   by one for a final high surrogate (not dereferenced). *)
Fixpoint ccf16_loop (fuel : nat) (src : list Z) (count max_count : Z) : option (Z * list Z) :=
  match fuel with
  | O => None
  | S fuel =>
      if count <? max_count then
        match src with
        | [] => None
        | c :: r =>
            let it := if is_high_surrogate c then tl r else r in
            match it with
            | [] => Some (count + 1, [])
            | _ => ccf16_loop fuel it (count + 1) max_count
            end
        end
      else Some (count, src)
  end.
(* utf.hpp:2672-2695 *)
Definition count_fast16 (src : list Z) (max_count : Z) : option (Z * list Z) :=
  match src with [] => Some (0, []) | _ => ccf16_loop (S (length src)) src 0 max_count end.

(* utf.hpp:2697-2717 *)
Fixpoint cc16_loop (fuel : nat) (src : list Z) (count max_count : Z) : option (Z * list Z) :=
  match fuel with
  | O => None
  | S fuel =>
      match src with
      | [] => Some (count, [])
      | c :: r =>
          if count <? max_count then
            let r' := match r with
                      | c2 :: r2 => if is_high_surrogate c && is_low_surrogate c2 then r2 else r
                      | [] => r end in
            cc16_loop fuel r' (count + 1) max_count
          else Some (count, src)
      end
  end.
(* utf.hpp:2697-2717 *)
Definition count16 (src : list Z) (max_count : Z) : option (Z * list Z) :=
  cc16_loop (S (length src)) src 0 max_count.

(* utf.hpp:1246-1271 (both functions) *)
Definition count32 (src : list Z) (max_count : Z) : Z * list Z :=
  if max_count <=? zlen src then (max_count, skipn (Z.to_nat max_count) src)
  else (zlen src, []).
