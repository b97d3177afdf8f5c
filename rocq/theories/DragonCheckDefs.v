(* What is computed for each table entry and for each binary exponent; see DragonCheck. *)
From Verif Require Import Base DragonModel.
From Verif Require Export DragonCerts.

(* floor logarithms without the range checks *)
Definition fl10 (e : Z) : Z := log_value log10_2 0 22 e.
Definition fl2 (k : Z) : Z := log_value log2_10 0 19 k.
Definition fl43 (e : Z) : Z := log_value log10_2 log10_4_over_3 22 e.

Section Check.
Variables (I : impl) (Q ex : Z) (cert : list (Z * Z)).
(* the entry for k: the power of 10 is between lo and hi; exact for 0 <= k <= ex *)
Definition lo (k c : Z) : Z := if k <? 0 then c - 1 else c.
Definition hi (k c : Z) : Z := if k <=? ex then c else c + 1.
Definition normalised (c : Z) : bool := (2 ^ (Q - 1) <=? c) && (c <? 2 ^ Q).

(* f = 5^k, k >= 0 *)
Definition entry_pos (k f c : Z) : bool :=
  let t := fl2 k - (Q - 1) - k in
  normalised c && Bool.eqb (k <=? ex) (t <=? 0) &&
  (if t <=? 0 then c =? Z.shiftl f (- t) else (Z.shiftl c t <=? f) && (f <? Z.shiftl (c + 1) t)).
(* f = 5^n, k = -n < 0 *)
Definition entry_neg (n f c : Z) : bool :=
  let s := Q - 1 - fl2 (- n) - n in
  normalised c && (0 <=? s) && ((c - 1) * f <? Z.shiftl 1 s) && (Z.shiftl 1 s <=? c * f).
Fixpoint check_pos (k f : Z) (l : list Z) : bool :=
  match l with [] => true | c :: l' => entry_pos k f c && check_pos (k + 1) (5 * f) l' end.
Fixpoint check_neg (n f : Z) (l : list Z) : bool :=
  match l with [] => true | c :: l' => entry_neg n f c && check_neg (n + 1) (5 * f) l' end.

(* ---- regular intervals ---- *)
(* n * c * 2^b / 2^Q has the floor of n * 2^(e-1) * 10^k, for n below 2^(p+2) *)
Definition fraction_ok (e k b c : Z) (qq : Z * Z) : bool :=
  if (0 <=? k) && (k <=? ex) then true
  else
    let q := fst qq in let q' := snd qq in
    let p := Z.shiftr (q * c) (Q - b) in let p' := Z.shiftr (q' * c) (Q - b) + 1 in
    (0 <? q) && (0 <? q') && (p' * q - p * q' =? 1) && (2 ^ (im_p I + 2) <=? q + q') &&
    (q' * hi k c <? Z.shiftl p' (Q - b)) &&
    (if (k <? 0) && (-30 <? k) then (0 <=? e - 1 + k) && (p * 5 ^ (- k) <=? Z.shiftl q (e - 1 + k))
     else Z.shiftl p (Q - b) <=? q * lo k c).
Definition thresholds_ok (e k : Z) : bool :=
  if e <? case_fc_pm_half_lower_threshold I then
    (0 <=? k) && (e - 1 + k <? 0) && (if case_fc_lower_threshold I <=? e then 0 <=? e + k else true)
  else if e <=? case_fc_pm_half_upper_threshold I then (0 <=? k) && (0 <=? e - 1 + k)
  else if e <=? divisibility_check_by_5_threshold I then (k <=? 0) && (- k <? zlen (im_inv I)) && (0 <=? e - 1 + k)
  else k <=? - zlen (im_inv I).
Definition normal_check (e : Z) : bool :=
  let k := im_kappa I - fl10 e in
  let b := e + fl2 k in
  match entry (im_cache I) (k - im_min_k I), nth_error cert (Z.to_nat (e - (im_min_exponent I - im_p I))) with
  | Some c, Some qq =>
      (im_min_k I <=? k) && (k <=? im_max_k I) && (1 <=? b) && (b <=? 9) && fraction_ok e k b c qq &&
      (let d := Z.shiftr c (Q - 1 - b) in (10 ^ im_kappa I <=? d) && (d <? 10 ^ (im_kappa I + 1))) && thresholds_ok e k
  | _, _ => false
  end.

(* ---- powers of two: the interval below is half as wide, except for the smallest one ---- *)
(* multiplication by 2^(Q+1) *)
Definition T (x : Z) : Z := Z.shiftl x (Q + 1).
Definition shorter_check (e : Z) : bool :=
  let k := - fl43 e in
  let b := e + fl2 k in
  match entry (im_cache I) (k - im_min_k I), compute_nearest_shorter I e with
  | Some c, Some (s, E) =>
      let N := 2 ^ (im_p I + 2) in
      let g := if e =? im_min_exponent I - im_p I then 2 else 1 in
      let l := Z.shiftl (lo k c) b in let h := Z.shiftl (hi k c) b in
      (im_min_k I <=? k) && (k <=? im_max_k I) && (0 <=? b) && (0 <? s) && negb (s mod 10 =? 0) && ((g + 2) * h <? T 10) &&
      (if E =? - k then
         let t := s / 10 in
         (0 <? t) && (T (10 * t) <? (N - g) * l) && ((N + 2) * h <? T (10 * t + 10)) &&
         ((N - g) * h <=? T s) && (T s <=? (N + 2) * l) &&
         (((2 * Z.abs (T s - N * l) <? T 1) && (2 * Z.abs (T s - N * h) <? T 1)) ||
          (Z.even s && (2 * Z.abs (T s - N * l) <=? T 1) && (2 * Z.abs (T s - N * h) <=? T 1)) ||
          ((T (s - 1) <? (N - g) * l) && (N * h <=? T s)))
       else
         (- k <? E) && (E <? - k + 40) &&
         let S := s * 10 ^ (E + k - 1) in
         (1 <? S) && ((N - g) * h <=? T (10 * S)) && (T (10 * S) <=? (N + 2) * l))
  | _, _ => false
  end.
End Check.

Fixpoint zrange (a : Z) (n : nat) : list Z := match n with O => [] | S n' => a :: zrange (a + 1) n' end.
Definition normal64 : Z -> bool := normal_check impl64 128 55 cert64.
Definition normal32 : Z -> bool := normal_check impl32 64 27 cert32.
Definition shorter64 : Z -> bool := shorter_check impl64 128 55.
Definition shorter32 : Z -> bool := shorter_check impl32 64 27.
