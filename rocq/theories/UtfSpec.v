(* Independent specification of the Unicode encoding forms and of "decoding
   with replacement".  Nothing here refers to the model of the code.

   Sources: The Unicode Standard, chapter 3: D76 (scalar value), D90-D92 and
   Table 3-5 / 3-6 (encoding forms), D93b and "U+FFFD substitution of maximal
   subparts" (conformance clause C10 discussion). *)
From Verif Require Import Base.

Definition is_surr (cp : Z) : bool := (0xD800 <=? cp) && (cp <=? 0xDFFF).

(* Which code points are accepted: scalar values, or (lax surrogate policy)
   every code point of the Unicode code space. *)
Definition valid_cp (lax : bool) (cp : Z) : Prop :=
  0 <= cp <= 0x10FFFF /\ (lax = true \/ is_surr cp = false).

(* Table 3-6. *)
Definition enc8 (cp : Z) : list Z :=
  if cp <? 0x80 then [cp]
  else if cp <? 0x800 then [0xC0 + cp / 64; 0x80 + cp mod 64]
  else if cp <? 0x10000 then
    [0xE0 + cp / 4096; 0x80 + cp / 64 mod 64; 0x80 + cp mod 64]
  else
    [0xF0 + cp / 262144; 0x80 + cp / 4096 mod 64; 0x80 + cp / 64 mod 64; 0x80 + cp mod 64].

(* Table 3-5. *)
Definition enc16 (cp : Z) : list Z :=
  if cp <? 0x10000 then [cp]
  else [0xD800 + (cp - 0x10000) / 1024; 0xDC00 + (cp - 0x10000) mod 1024].

Definition enc32 (cp : Z) : list Z := [cp].

(* ------------------------------------------------------------------ *)
(* Decoding with replacement, for an encoding form [enc]. *)

Inductive item := Good (cp : Z) | Bad (units : list Z).

Section Items.
  Variable enc : Z -> list Z.
  Variable lax : bool.

  (* [w] is an initial subsequence of a well-formed sequence. *)
  Definition initial (w : list Z) : Prop :=
    exists cp, valid_cp lax cp /\ is_prefix w (enc cp).

  (* No well-formed sequence starts here. *)
  Definition unconvertible (src : list Z) : Prop :=
    forall cp, valid_cp lax cp -> ~ is_prefix (enc cp) src.

  (* D93b: the longest subsequence starting at an unconvertible offset that is
     either an initial subsequence of a well-formed one, or of length one. *)
  Definition maximal_subpart (bad src : list Z) : Prop :=
    is_prefix bad src /\
    (length bad = 1%nat \/ (bad <> [] /\ initial bad)) /\
    (forall w, is_prefix w src -> initial w -> (length w <= length bad)%nat).

  (* The segmentation of a source text.  In lax mode UTF-16 would be ambiguous
     (a surrogate pair / two lone surrogates): the longest match is taken. *)
  Inductive items : list Z -> list item -> Prop :=
  | items_nil : items [] []
  | items_good cp rest its :
      valid_cp lax cp ->
      (forall cp', valid_cp lax cp' -> is_prefix (enc cp') (enc cp ++ rest) ->
                   (length (enc cp') <= length (enc cp))%nat) ->
      items rest its ->
      items (enc cp ++ rest) (Good cp :: its)
  | items_bad bad rest its :
      unconvertible (bad ++ rest) ->
      maximal_subpart bad (bad ++ rest) ->
      items rest its ->
      items (bad ++ rest) (Bad bad :: its).

  (* Source units covered by an item. *)
  Definition src_of (it : item) : list Z :=
    match it with Good cp => enc cp | Bad b => b end.
  Definition srcs_of (its : list item) : list Z := flat_map src_of its.
End Items.

(* What an item becomes in the destination encoding. *)
Definition out_of (dst_enc : Z -> list Z) (it : item) : list Z :=
  match it with Good cp => dst_enc cp | Bad _ => dst_enc 0xFFFD end.
Definition outs_of (dst_enc : Z -> list Z) (its : list item) : list Z :=
  flat_map (out_of dst_enc) its.

Definition is_bad (it : item) : bool := match it with Bad _ => true | _ => false end.

(* Valid text: the encoding of a list of accepted code points. *)
Definition valid_text (lax : bool) (cps : list Z) : Prop := Forall (valid_cp lax) cps.
Definition encode (enc : Z -> list Z) (cps : list Z) : list Z := flat_map enc cps.

(* Well-formed output: an encoding of valid code points. *)
Definition well_formed (enc : Z -> list Z) (lax : bool) (s : list Z) : Prop :=
  exists cps, valid_text lax cps /\ s = encode enc cps.

(* Code units are unsigned numbers of the code-unit width. *)
Definition units (bits : Z) (s : list Z) : Prop := Forall (fun c => 0 <= c < 2 ^ bits) s.

(* ------------------------------------------------------------------ *)
(* Result of a transcoding operation. *)
Inductive stop_reason := Completed | Insufficient | InvalidSequence.

(* [t_rest] is the source from the returned src_ptr on, [t_out] what was
   written, [t_notes] the (source from seq_begin on, length) pairs passed to
   the error notifier, in order. *)
Record tc_result := mk_tc { t_rest : list Z; t_out : list Z; t_reason : stop_reason;
                            t_notes : list (list Z * Z) }.

(* The expected notifications for a list of items. *)
Fixpoint notes_of (src_enc : Z -> list Z) (its : list item) : list (list Z * Z) :=
  match its with
  | [] => []
  | Good _ :: r => notes_of src_enc r
  | Bad b :: r => (b ++ srcs_of src_enc r, zlen b) :: notes_of src_enc r
  end.

(* The result of transcoding [its] into a buffer of [space] units, as a
   declarative property: the items are cut into the ones written ([done]) and
   the remaining ones ([todo]); the cut is at the first item that does not fit
   or at the first ill-formed item when [stop] is set.  The notifications are
   those of the ill-formed items reached. *)
Definition transcoded (src_enc dst_enc : Z -> list Z) (stop : bool) (its : list item)
    (space : Z) (r : tc_result) : Prop :=
  exists done todo,
    its = done ++ todo /\
    t_rest r = srcs_of src_enc todo /\
    t_out r = outs_of dst_enc done /\
    zlen (t_out r) <= space /\
    (stop = true -> existsb is_bad done = false) /\
    match t_reason r with
    | Completed => todo = [] /\ t_notes r = notes_of src_enc its
    | Insufficient => exists it more, todo = it :: more /\
        zlen (t_out r) + zlen (out_of dst_enc it) > space /\
        (stop = true -> is_bad it = false) /\
        notes_of src_enc its = t_notes r ++ notes_of src_enc more
    | InvalidSequence => stop = true /\ exists b more, todo = Bad b :: more /\
        notes_of src_enc its = t_notes r ++ notes_of src_enc more
    end.

(* Result of a size computation. *)
Record sz_result := mk_sz { s_size : Z; s_rest : list Z; s_reason : stop_reason }.
