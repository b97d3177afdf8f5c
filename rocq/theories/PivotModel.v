(* Transcoding between two charsets when there is no direct transcoder, and transcoding
   into a destination: include/strf/detail/facets/charset.hpp:1048-1660.
   [to_u32 src space] and [from_u32 src space] are the two functions given (or looked up);
   the error notifier and the flags are theirs.  STRF_ASSERT failures are None. *)
From Verif Require Import Base DestModel TransSpec.

(* decode_encode_result, 1051-1058 (dst_ptr as what was written), and the notifications *)
Record de_result := mk_de { de_stale : list Z; de_out : list Z; de_dist : Z; de_reason : reason; de_notes : list note }.
(* decode_encode_size_result, 1060-1067 *)
Record des_result := mk_des { ds_size : Z; ds_stale : list Z; ds_dist : Z; ds_reason : reason }.
(* operator== on transcode_stop_reason (charset.hpp:27-34) *)
Definition reason_eqb (a b : reason) : bool :=
  match a, b with
  | RCompleted, RCompleted | RInsufficient, RInsufficient | RInvalid, RInvalid | RUnsupported, RUnsupported => true
  | _, _ => false
  end.
(* STRF_ASSERT: a failed assertion is None *)
Definition assert (b : bool) : option unit := if b then Some tt else None.
Definition pivot_size : Z := 16.           (* 1081, 1175, 1279: pivot_buff[16] *)
Definition unsafe_size_pivot : Z := 32.    (* 1417: pivot_buff_size = 32 *)

Section Pivot.
Variable to_u32 from_u32 : list Z -> Z -> option tr_result.
Variable size_calc : list Z -> Z -> option sz_res.

(* decode_encode into an array, 1069-1105; unsafe_decode_encode, 1348-1361, calls it *)
Fixpoint decode_encode (fuel : nat) (src : list Z) (space : Z) : option de_result :=
  match fuel with
  | O => None
  | S fuel =>
      do src_res <- to_u32 src pivot_size ;
      do dst_res <- from_u32 (r_out src_res) space ;
      do _ <- assert (negb (reason_eqb (r_reason src_res) RUnsupported)) ;
      do _ <- assert (negb (reason_eqb (r_reason dst_res) RInvalid)) ;
      let notes := r_notes src_res ++ r_notes dst_res in
      if reason_eqb (r_reason dst_res) RCompleted then
        if reason_eqb (r_reason src_res) RInsufficient then
          do r <- decode_encode fuel (r_rest src_res) (space - zlen (r_out dst_res)) ;
          Some (mk_de (de_stale r) (r_out dst_res ++ de_out r) (de_dist r) (de_reason r) (notes ++ de_notes r))
        else Some (mk_de (r_rest src_res) (r_out dst_res) 0 (r_reason src_res) notes)
      else Some (mk_de src (r_out dst_res) (zlen (r_out src_res) - zlen (r_rest dst_res)) (r_reason dst_res) notes)
  end.

(* decode_encode_size, 1265-1303, with pivot_buff_size 16, and
   unsafe_decode_encode_size, 1409-1445, with 32 *)
Fixpoint decode_encode_size (pivot : Z) (fuel : nat) (src : list Z) (limit size : Z) : option des_result :=
  match fuel with
  | O => None
  | S fuel =>
      do src_res <- to_u32 src pivot ;
      do size_res <- size_calc (r_out src_res) limit ;
      do _ <- assert (negb (reason_eqb (r_reason src_res) RUnsupported)) ;
      do _ <- assert (negb (reason_eqb (z_reason size_res) RInvalid)) ;
      do _ <- assert (z_size size_res <=? limit) ;
      let limit := limit - z_size size_res in
      let size := size + z_size size_res in
      if reason_eqb (z_reason size_res) RCompleted then
        if reason_eqb (r_reason src_res) RInsufficient then decode_encode_size pivot fuel (r_rest src_res) limit size
        else Some (mk_des size (r_rest src_res) 0 (r_reason src_res))
      else Some (mk_des size src (zlen (r_out src_res) - zlen (z_rest size_res)) (z_reason size_res))
  end.

Section Dest.
Context {S : Type} (ops : dest_ops S).

(* strf::transcode(func, src, src_end, dst, ...), 1548-1583; [to_u32] is func.  The result
   is a transcode_size_result: count, source left, stop reason *)
Fixpoint transcode_loop (fuel : nat) (s : S) (src : list Z) (count : Z) : option (S * sz_res) :=
  match fuel with
  | O => None
  | Datatypes.S fuel =>
      do res <- to_u32 src (Z.of_nat (d_space ops s)) ;
      do s1 <- d_emit ops s (r_out res) ;
      let count := count + zlen (r_out res) in
      if negb (reason_eqb (r_reason res) RInsufficient) then Some (s1, mk_szr count (r_rest res) (r_reason res))
      else let s2 := d_recycle ops s1 in
           if negb (d_good ops s2) then Some (s2, mk_szr count (r_rest res) RInsufficient)
           else transcode_loop fuel s2 (r_rest res) count
  end.
(* charset.hpp:1548-1583 transcode into a destination *)
Definition transcode_to_dest (fuel : nat) (s : S) (src : list Z) : option (S * sz_res) :=
  if negb (d_good ops s) then Some (s, mk_szr 0 src RInsufficient) else transcode_loop fuel s src 0.

(* decode_encode into a destination, 1158-1214: the inner loop (pivot_it .. ) *)
Inductive inner_result := INext (s : S) (count : Z) | IStop (s : S) (r : des_result).
(* charset.hpp:1178-1206: the inner while loop *)
Fixpoint decode_encode_inner (fuel : nat) (s : S) (src : list Z) (src_res : tr_result) (pivot_it : list Z) (count : Z)
    : option inner_result :=
  match fuel with
  | O => None
  | Datatypes.S fuel =>
      do dst_res <- from_u32 pivot_it (Z.of_nat (d_space ops s)) ;
      let count := count + zlen (r_out dst_res) in
      do s1 <- d_emit ops s (r_out dst_res) ;
      let dist := zlen (r_out src_res) - zlen (r_rest dst_res) in
      if reason_eqb (r_reason dst_res) RCompleted then
        if reason_eqb (r_reason src_res) RInsufficient then Some (INext s1 count)
        else do _ <- assert (reason_eqb (r_reason src_res) RCompleted || reason_eqb (r_reason src_res) RInvalid) ;
             Some (IStop s1 (mk_des count (r_rest src_res) 0 (r_reason src_res)))
      else if reason_eqb (r_reason dst_res) RInsufficient then
        let s2 := d_recycle ops s1 in
        if negb (d_good ops s2) then Some (IStop s2 (mk_des count src dist RInsufficient))
        else decode_encode_inner fuel s2 src src_res (r_rest dst_res) count
      else do _ <- assert (reason_eqb (r_reason dst_res) RUnsupported) ;
           Some (IStop s1 (mk_des count src dist RUnsupported))
  end.
(* ... the outer loop.  The local dst_it / dst_end are the destination's pointers: the
   code advances the destination only when the inner loop ends, which nobody can see in
   between since nothing else uses the destination *)
Fixpoint decode_encode_outer (fuel : nat) (s : S) (src : list Z) (count : Z) : option (S * des_result) :=
  match fuel with
  | O => None
  | Datatypes.S fuel' =>
      do src_res <- to_u32 src pivot_size ;
      do r <- decode_encode_inner (Datatypes.S (Datatypes.S (length (r_out src_res)))) s src src_res (r_out src_res) count ;
      match r with
      | INext s1 count1 => decode_encode_outer fuel' s1 (r_rest src_res) count1
      | IStop s1 r => Some (s1, r)
      end
  end.
(* charset.hpp:1158-1214 *)
Definition decode_encode_dest (fuel : nat) (s : S) (src : list Z) : option (S * des_result) :=
  if negb (d_good ops s) then Some (s, mk_des 0 src 0 RInsufficient) else decode_encode_outer fuel s src 0.
End Dest.
End Pivot.
