(* What the error notifier is told when a text is transcoded into a destination, as every string printer
   does: include/strf/detail/facets/charset.hpp:1158-1214, 1548-1610; string.hpp:908-919, 1079-1090.
   The same loops as in PivotModel and CsetModel, which keep the notifications as well: the functions given
   are called with the notifier, so that what they report, in order, is what the notifier is told. *)
From Verif Require Import Base DestModel UtfSpec UtfModel UtfForms TransSpec SbcsTables SbcsModel PivotModel CsetModel PrintModel.

Section Notes.
Variable to_u32 from_u32 : list Z -> Z -> option tr_result.
Context {S : Type} (ops : dest_ops S).

(* charset.hpp:1548-1583, the loop: PivotModel.transcode_loop *)
Fixpoint transcode_loop_n (fuel : nat) (s : S) (src : list Z) (count : Z) : option (S * sz_res * list note) :=
  match fuel with
  | O => None
  | Datatypes.S fuel =>
      do res <- to_u32 src (Z.of_nat (d_space ops s)) ;
      do s1 <- d_emit ops s (r_out res) ;
      let count := count + zlen (r_out res) in
      if negb (reason_eqb (r_reason res) RInsufficient) then Some (s1, mk_szr count (r_rest res) (r_reason res), r_notes res)
      else let s2 := d_recycle ops s1 in
           if negb (d_good ops s2) then Some (s2, mk_szr count (r_rest res) RInsufficient, r_notes res)
           else do r <- transcode_loop_n fuel s2 (r_rest res) count ; Some (fst r, r_notes res ++ snd r)
  end.
(* charset.hpp:1548-1583 *)
Definition transcode_to_dest_n (fuel : nat) (s : S) (src : list Z) : option (S * sz_res * list note) :=
  if negb (d_good ops s) then Some (s, mk_szr 0 src RInsufficient, []) else transcode_loop_n fuel s src 0.

(* charset.hpp:1178-1206, the inner loop: PivotModel.decode_encode_inner *)
Fixpoint decode_encode_inner_n (fuel : nat) (s : S) (src : list Z) (src_res : tr_result) (pivot_it : list Z) (count : Z)
    : option (@inner_result S * list note) :=
  match fuel with
  | O => None
  | Datatypes.S fuel =>
      do dst_res <- from_u32 pivot_it (Z.of_nat (d_space ops s)) ;
      let count := count + zlen (r_out dst_res) in
      do s1 <- d_emit ops s (r_out dst_res) ;
      let dist := zlen (r_out src_res) - zlen (r_rest dst_res) in
      let notes := r_notes dst_res in
      if reason_eqb (r_reason dst_res) RCompleted then
        if reason_eqb (r_reason src_res) RInsufficient then Some (INext s1 count, notes)
        else do _ <- assert (reason_eqb (r_reason src_res) RCompleted || reason_eqb (r_reason src_res) RInvalid) ;
             Some (IStop s1 (mk_des count (r_rest src_res) 0 (r_reason src_res)), notes)
      else if reason_eqb (r_reason dst_res) RInsufficient then
        let s2 := d_recycle ops s1 in
        if negb (d_good ops s2) then Some (IStop s2 (mk_des count src dist RInsufficient), notes)
        else do r <- decode_encode_inner_n fuel s2 src src_res (r_rest dst_res) count ; Some (fst r, notes ++ snd r)
      else do _ <- assert (reason_eqb (r_reason dst_res) RUnsupported) ;
           Some (IStop s1 (mk_des count src dist RUnsupported), notes)
  end.
(* charset.hpp:1174-1212, the outer loop: PivotModel.decode_encode_outer *)
Fixpoint decode_encode_outer_n (fuel : nat) (s : S) (src : list Z) (count : Z) : option (S * des_result * list note) :=
  match fuel with
  | O => None
  | Datatypes.S fuel' =>
      do src_res <- to_u32 src pivot_size ;
      do r <- decode_encode_inner_n (Datatypes.S (Datatypes.S (length (r_out src_res)))) s src src_res (r_out src_res) count ;
      let notes := r_notes src_res ++ snd r in
      match fst r with
      | INext s1 count1 => do r2 <- decode_encode_outer_n fuel' s1 (r_rest src_res) count1 ; Some (fst r2, notes ++ snd r2)
      | IStop s1 r1 => Some (s1, r1, notes)
      end
  end.
(* charset.hpp:1158-1214 *)
Definition decode_encode_dest_n (fuel : nat) (s : S) (src : list Z) : option (S * des_result * list note) :=
  if negb (d_good ops s) then Some (s, mk_des 0 src 0 RInsufficient, []) else decode_encode_outer_n fuel s src 0.
End Notes.

(* charset.hpp:1586-1610 strf::transcode(src_charset, dst_charset, ...) into a destination: CsetModel.transcode_into *)
Definition transcode_into_n {S} (ops : dest_ops S) (a b : cset) (fl : flags) (s : S) (src : list Z) : option (S * des_result * list note) :=
  match direct a b with
  | Some func =>
      do r <- transcode_to_dest_n (func fl) ops (Datatypes.S (Datatypes.S (length src))) s src ;
      let z := snd (fst r) in
      Some (fst (fst r), mk_des (z_size z) (z_rest z) 0 (z_reason z), snd r)
  | None => decode_encode_dest_n (to_u32_of a fl) (from_u32_unsafe_of b fl) ops (Datatypes.S (length src)) s src
  end.
(* string.hpp:908-919, 1079-1090: what the notifier of the facets pack is told when a transcoding printer prints *)
Definition p_transcode_n (a b : cset) (src : list Z) {S} (ops : dest_ops S) (s : S) : option (S * list note) :=
  do r <- transcode_into_n ops a b flags_none s src ; Some (fst (fst r), snd r).
