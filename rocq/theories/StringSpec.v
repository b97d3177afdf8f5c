(* Specification of printed strings and characters, independent of the printers. *)
From Verif Require Import Base WidthModel UtfSpec UtfForms SbcsTables SbcsModel CsetModel CsetProofs Properties_Pivot GcbTable GcbSpec WCalcModel GcbCheck WCalcProofs
  IntSpec IntModel CharsetModel StringModel PrintSpec.

(* The code points of a source text, each with the code units it stands for; an ill-formed
   subsequence counts as one U+FFFD. *)
Definition segmented (a : cset) (src : list Z) (l : list (Z * list Z)) : Prop :=
  match a with
  | Utf f => exists its, items (enc_of f) false src its /\ l = map (fun it => (cp_of it, src_of (enc_of f) it)) its
  | Sb _ cs => map (fun b => (sb_decode cs b, [b])) src = map (fun s => (Some (fst s), snd s)) l
  end.
Definition seg_units (l : list (Z * list Z)) : list Z := concat (map snd l).
Definition seg_points (l : list (Z * list Z)) : list Z := map fst l.

(* display width of a segmented text, in 1/65536 of a column *)
Definition seg_width (w : wcalc) (l : list (Z * list Z)) : Z :=
  65536 * match w with
          | FastWidth => zlen (seg_units l)
          | FastU32len | U32len => zlen l
          | StdWidth => clusters_width [] (map (fun c => (gcb_of c, cp_width c)) (seg_points l))
          end.
(* the fast code point counter is only specified on well-formed texts *)
Definition countable (w : wcalc) (a : cset) (src : list Z) : Prop :=
  match w with FastU32len => well_formed_in a false src | _ => True end.

(* the first n code points are the longest prefix whose width is within the limit *)
Definition longest (w : wcalc) (l : list (Z * list Z)) (limit : Z) (n : nat) : Prop :=
  (n <= length l)%nat /\ seg_width w (firstn n l) <= limit /\
  (forall m, (m <= length l)%nat -> seg_width w (firstn m l) <= limit -> (m <= n)%nat).

(* the first k chunks of 32 code points are not the whole string and exactly as wide as the limit *)
Definition chunk_stop (l : list (Z * list Z)) (limit : Z) (k : nat) : Prop :=
  (1 <= k)%nat /\ (32 * k < length l)%nat /\ seg_width StdWidth (firstn (32 * k) l) = limit.
(* What is kept of a string with precision prec, and its width W.  fast_width counts code
   units, the others code points. *)
Definition kept_by (w : wcalc) (prec : Z) (l : list (Z * list Z)) (k : list Z) (W : Z) : Prop :=
  match w with
  | FastWidth =>
      is_prefix k (seg_units l) /\ W = 65536 * zlen k /\ W <= Z.max 0 prec /\
      (forall k', is_prefix k' (seg_units l) -> 65536 * zlen k' <= Z.max 0 prec -> zlen k' <= zlen k)
  | FastU32len | U32len =>
      exists n, k = seg_units (firstn n l) /\ W = seg_width w (firstn n l) /\ longest w l (Z.max 0 prec) n
  | StdWidth =>
      exists n, k = seg_units (firstn n l) /\ W = Z.min prec (seg_width w l) /\ (n <= length l)%nat /\
        seg_width w (firstn n l) <= prec /\
        ((longest w l prec n /\ forall k, ~ chunk_stop l prec k) \/
         (* known defect: an internal chunk of 32 code points ends exactly at the limit *)
         exists k, n = (32 * k)%nat /\ chunk_stop l prec k /\ forall j, (j < k)%nat -> ~ chunk_stop l prec j)
  end.
(* the part of the string that is printed, and its width *)
Definition content (w : wcalc) (prec : option Z) (l : list (Z * list Z)) (k : list Z) (W : Z) : Prop :=
  match prec with
  | None => k = seg_units l /\ W = seg_width w l
  | Some p => kept_by w p l k W
  end.

(* how the kept part appears in the destination: copied, or transcoded from a to b *)
Definition copied (pol : policy) (a b : cset) : bool :=
  match pol with NoTranscode => true | SaniAlways => false | SaniIfDifferent => cset_same a b
  | Unsafe dynamic => dynamic && cset_same a b end.
(* the unsafe policy is only specified on well-formed texts *)
Definition rendered (pol : policy) (a b : cset) (k t : list Z) : Prop :=
  if copied pol a b then t = k
  else (is_unsafe pol = true -> well_formed_in a false k) /\
    exists cps out, text_in a false k cps /\ Forall2 (encoded_in b) cps out /\ t = concat out.

(* how far str_width may exceed a limit that is not a whole number of columns *)
Definition slack (w : wcalc) : Z := match w with FastU32len | U32len => 65535 | _ => 0 end.
(* a string without alignment *)
Definition string_desc (w : wcalc) (prec : option Z) (W : Z) (t : list Z) : desc :=
  mk_desc t W W (match prec with None => slack w | Some _ => W end).
(* padded to the width of [al] with its fill character *)
Definition pad_desc (b : cset) (al : align_fmt) (W : Z) (t : list Z) (need : Z) : desc :=
  let m := missing (al_width al) W in
  mk_desc (padded (al_align al) (cs_encode (charset_of b) (al_fill al)) m t)
    (W + 65536 * m) (Z.max (W + 65536 * m) (al_width al)) need.
Definition aligned_desc (w : wcalc) (b : cset) (al : align_fmt) (prec : option Z) (W : Z) (t : list Z) : desc :=
  pad_desc b al W t (match prec with
                     | None => Z.max 0 (al_width al) + 65536 + slack w
                     | Some _ => W + 65536 * missing (al_width al) W
                     end).
