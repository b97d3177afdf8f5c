(* strf::output_buffer_iterator (include/strf/iterator.hpp). *)
From Verif Require Import Base DestModel PrintModel.
From Coq Require Import List.

(* what an algorithm can do with an output iterator; it keeps only a pointer to the destination,
   so that a copy of an iterator is the same thing *)
Inductive iter_op :=
| IIncrement          (* 29-31 ++it *)
| IPostIncrement      (* 33-35 it++ *)
| IDereference        (* 36-38 the iterator itself *)
| IAssign (c : Z).    (* 39-42 strf::put(dst, value) *)
Definition iter_step {S} (ops : dest_ops S) (s : S) (i : iter_op) : option S :=
  match i with IAssign c => put ops s c | _ => Some s end.
(* iterator.hpp:15-45: a sequence of uses of one iterator *)
Definition p_iter (l : list iter_op) : printer := fun S ops s =>
  fold_left (fun r i => do s1 <- r ; iter_step ops s1 i) l (Some s).
(* 43-45 failed() *)
Definition iter_failed {S} (ops : dest_ops S) (s : S) : bool := negb (d_good ops s).
