(* What it means for a printable argument to print a text and to be measured right. *)
From Verif Require Import Base WidthModel DestModel DestProofs PrintModel.

(* A printer prints [t]: on any destination (with full_laws: [R s u] says that the text
   sent to s so far is u) it never fails (no access outside the buffer, no overflow), and
   sends exactly t. *)
Definition prints_anywhere (p : printer) (t : list Z) : Prop :=
  forall S (ops : dest_ops S) R, full_laws ops R ->
  forall s u, R s u -> exists s', p S ops s = Some s' /\ R s' (u ++ t).
(* If there is room for t in the buffer, all of it is put there: the buffer needs not be
   recycled (nothing is said here of recycle() and of do_write(), they may do anything). *)
Definition buffer_keeps {S} (ops : dest_ops S) (R : S -> list Z -> Prop) : Prop :=
  forall s t u, R s t -> (length u <= d_space ops s)%nat ->
  exists s', d_emit ops s u = Some s' /\ R s' (t ++ u) /\
    d_space ops s' = (d_space ops s - length u)%nat /\ d_good ops s' = d_good ops s.
Definition prints_in_room (p : printer) (t : list Z) : Prop :=
  forall S (ops : dest_ops S) R, buffer_keeps ops R ->
  forall s u, R s u -> d_good ops s = true -> (length t <= d_space ops s)%nat ->
  exists s', p S ops s = Some s' /\ R s' (u ++ t) /\
    d_space ops s' = (d_space ops s - length t)%nat /\ d_good ops s' = true.
Definition prints_text (p : printer) (t : list Z) : Prop := prints_anywhere p t /\ prints_in_room p t.

(* A printable argument as the user sees it: its text and display width (in 1/65536 of a
   column).  The other two fields bound what has to fit in a width_t while it is measured:
   [d_peak] if nothing stops at the limit, [d_need] how far the limit may be exceeded. *)
Record desc := mk_desc { d_text : list Z; d_width : Z; d_peak : Z; d_need : Z }.

(* the accumulator cannot overflow: x is the width accumulated before *)
Definition room (limit x : Z) (d : desc) : Prop :=
  x + d_peak d <= u_max \/ Z.max limit x + d_need d <= u_max.
(* limits for which the argument may be measured: at most M; None: width is not measured *)
Definition within (M : option Z) (limit : Z) : Prop := match M with Some m => limit <= m | None => False end.
Definition pre_ok (M : option Z) (p : pre) (d : desc) : Prop :=
  match p_size p with None => True | Some n => 0 <= n < 2 ^ 64 end /\
  match p_width p with
  | None => True
  | Some (limit, x) => is_width limit /\ within M limit /\ 0 <= x <= u_max /\ room limit x d
  end.
(* what measuring adds: the exact number of code units (the accumulator is a size_t), and
   the width, exactly or at least up to the limit *)
Definition added (p : pre) (d : desc) (p' : pre) : Prop :=
  p_size p' = option_map (fun n => (n + zlen (d_text d)) mod 2 ^ 64) (p_size p) /\
  match p_width p, p_width p' with
  | None, None => True
  | Some (limit, x), Some (limit', x') =>
      limit' = limit /\ x <= x' <= x + d_width d /\ (x' = x + d_width d \/ limit <= x') /\
      x' <= Z.max limit x + d_need d
  | _, _ => False
  end.
Definition arg_ok (M : option Z) (a : arg) (d : desc) : Prop :=
  0 <= d_width d <= d_peak d /\ 0 <= d_need d /\
  forall p, pre_ok M p d -> exists p' pr, a p = Some (p', pr) /\ prints_text pr (d_text d) /\ added p d p'.

(* several arguments, one after the other *)
Definition sumZ (l : list Z) : Z := fold_right Z.add 0 l.
Definition join_desc (ds : list desc) : desc :=
  mk_desc (concat (map d_text ds)) (sumZ (map d_width ds)) (sumZ (map d_peak ds)) (sumZ (map d_need ds)).

(* fill characters missing to reach [want], when [have] is taken (1/65536 of columns): the
   nearest whole number, a half being rounded down *)
Definition missing (want have : Z) : Z := Z.max 0 ((want - have + 32767) / 65536).
