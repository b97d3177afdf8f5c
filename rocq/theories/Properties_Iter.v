(* C65: strf::output_buffer_iterator *)
From Coq Require Import List.
From Verif Require Import Base DestModel DestProofs PrintModel PrintSpec SyntaxModel SyntaxSpec SyntaxProofs IterModel IterProofs.

(* the values an algorithm assigned through an iterator (or any copy of it), in order *)
Definition assigned (l : list iter_op) : list Z := flat_map (fun i => match i with IAssign c => [c] | _ => [] end) l.

(* Whatever else is done with the iterator, the destination receives exactly the assigned values:
   every destination of the library ends up as for that text (what that is: C64_destinations) *)
Theorem C65_iterator : forall Res (c : creator Res) P l, creator_keeps c P ->
  exists r, on_dest (cr_unsized c) (p_iter l) = Some r /\ P (assigned l) r.
Proof. exact (fun Res c P l K => proj1 K (p_iter l) (assigned l) (iter_prints l)). Qed.

(* A C string of n units gets the first n-1 assigned values and the terminator, the rest of the
   buffer is untouched, and failed() and truncated say whether more were assigned: with no exception (cf. C08) *)
Theorem C65_cstr : forall buf l, (1 <= length buf)%nat -> let m := (length buf - 1)%nat in let text := assigned l in
  exists s, p_iter l _ cstr_ops (cstr_init buf) = Some s /\
    iter_failed cstr_ops s = (m <? length text)%nat /\
    cstr_finish s = Some (firstn m text ++ 0 :: skipn (length (firstn m text) + 1) buf, (true, length (firstn m text)), (m <? length text)%nat).
Proof.
  intros buf l H m text. destruct (iter_fixed 1 buf l (cstr_init buf) H) as (s & E & G & Q).
  { unfold put_inv. cbn [length cstr_init c_good c_region c_ptr c_end c_buf app skipn]. rewrite (proj2 (Nat.leb_le 0 (length buf - 1))) by lia. auto. }
  fold m in G, Q. exists s. split; [exact E|]. change (assigned_of l) with text in *. unfold iter_failed, cstr_finish. cbn [cstr_ops d_good]. rewrite G.
  rewrite Nat.ltb_antisym. split; [reflexivity|].
  destruct (Nat.leb_spec (length text) m) as [L|L].
  - destruct Q as (-> & -> & Q & ->). rewrite firstn_all2 by lia.
    replace (length text <? _)%nat with true by (symmetry; apply Nat.ltb_lt; rewrite app_length, skipn_length; subst m; lia).
    unfold store. rewrite firstn_app, Nat.sub_diag, firstn_all. cbn [firstn]. rewrite app_nil_r. rewrite skipn_app, skipn_all2, skipn_skipn by (cbn; lia).
    cbn [app length negb]. replace (length text + 1 - length text + length text)%nat with (length text + 1)%nat by lia. reflexivity.
  - destruct Q as (_ & _ & _ & -> & ->). assert (LF : length (firstn m text) = m) by (rewrite firstn_length; lia). rewrite LF.
    replace (m <? _)%nat with true by (symmetry; apply Nat.ltb_lt; rewrite app_length, skipn_length, LF; subst m; lia).
    unfold store. rewrite firstn_app, firstn_firstn, Nat.min_id, LF, Nat.sub_diag. cbn [firstn]. rewrite app_nil_r. rewrite skipn_app, skipn_all2, skipn_skipn by (rewrite LF; cbn; lia).
    rewrite LF. cbn [app length negb]. replace (m + 1 - m + m)%nat with (m + 1)%nat by lia. reflexivity.
Qed.
(* An array gets the first n assigned values *)
Theorem C65_array : forall buf l, let n := length buf in let text := assigned l in
  exists s, p_iter l _ cstr_ops (arr_init buf) = Some s /\
    iter_failed cstr_ops s = (n <? length text)%nat /\
    c_buf s = firstn n text ++ skipn (length (firstn n text)) buf /\
    arr_finish s = (Some (true, length (firstn n text)), (n <? length text)%nat).
Proof.
  intros buf l n text. destruct (iter_fixed 0 buf l (arr_init buf) (Nat.le_0_l _)) as (s & E & G & Q).
  { unfold put_inv. cbn [length arr_init c_good c_region c_ptr c_end c_buf app skipn]. rewrite Nat.sub_0_r. rewrite (proj2 (Nat.leb_le 0 (length buf))) by lia. auto. }
  rewrite Nat.sub_0_r in G, Q. fold n in G, Q. exists s. split; [exact E|]. change (assigned_of l) with text in *. unfold iter_failed, arr_finish. cbn [cstr_ops d_good]. rewrite G.
  rewrite Nat.ltb_antisym. split; [reflexivity|].
  destruct (Nat.leb_spec (length text) n) as [L|L].
  - destruct Q as (-> & -> & Q & ->). rewrite firstn_all2 by lia. auto.
  - destruct Q as (_ & _ & _ & -> & ->). rewrite firstn_length. replace (Nat.min n (length text)) with n by lia. auto.
Qed.
Example C65_ex : let l := [IDereference; IAssign 65; IPostIncrement; IDereference; IAssign 66; IIncrement; IAssign 67] in
  assigned l = [65;66;67] /\ on_dest (cr_unsized c_to_string) (p_iter l) = Some [65;66;67] /\
  on_dest (cr_unsized (c_cstr [1;1;1])) (p_iter l) = Some (Some ([65;66;0], (true, 2%nat), true)).
Proof. repeat split. Qed.
Print Assumptions C65_iterator.
Print Assumptions C65_cstr.
Print Assumptions C65_array.
