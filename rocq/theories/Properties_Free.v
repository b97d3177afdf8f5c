(* C66: what strf does without the standard library, or without compiler builtins *)
From Verif Require Import Base FreeModel FreeProofs.
From Coq Require Import List.

(* the number of leading zero bits of a 64-bit value *)
Theorem C66_countl_zero : forall x, 0 <= x < 2 ^ 64 ->
  let r := slow_countl_zero_ll x in 0 <= r <= 64 /\ x < 2 ^ (64 - r) /\ (x <> 0 -> 2 ^ (63 - r) <= x).
Proof. exact slow_countl_ok. Qed.
Example C66_countl_zero_ex : slow_countl_zero_ll 0x1ffffffff = 31 /\ slow_countl_zero_ll 0x200000000 = 30.
Proof. split; reflexivity. Qed.
(* the length of a C string; without a terminator the memory is left *)
Theorem C66_str_length : (forall text rest, ~ In 0 text -> str_length (text ++ 0 :: rest) = Some (zlen text)) /\
  forall mem, str_length mem = None <-> ~ In 0 mem.
Proof. exact (conj str_length_ok str_length_none). Qed.
(* the first occurrence of a character in text, which may be followed by anything *)
Theorem C66_str_find : forall text rest ch, exists r, str_find (text ++ rest) (length text) ch = Some r /\
  match r with None => ~ In ch text | Some i => nth_error text i = Some ch /\ ~ In ch (firstn i text) end.
Proof. exact str_find_ok. Qed.
(* comparing, filling, copying: what they read and write, and nothing more *)
Theorem C66_str_equal : forall a b rest_a rest_b, length a = length b ->
  exists x, str_equal (a ++ rest_a) (b ++ rest_b) (length a) = Some x /\ (x = true <-> a = b).
Proof. exact str_equal_ok. Qed.
Theorem C66_str_fill_n : forall area rest value, str_fill_n (area ++ rest) (zlen area) value = Some (repeat value (length area) ++ rest).
Proof. intros area rest value. unfold str_fill_n, zlen. rewrite Nat2Z.id. exact (fill_ok area rest value). Qed.
Theorem C66_copy_n : forall conv src rest_src area rest, length area = length src ->
  copy_n conv (src ++ rest_src) (length src) (area ++ rest) = Some (map conv src ++ rest).
Proof. exact (fun conv src rs area rest => copy_ok conv src area rs rest). Qed.
(* binary search: never leaves the range, whatever the comparison; on a range whose elements
   that compare less come first, it finds the end of them *)
Theorem C66_lower_bound : (forall T (comp : T -> bool) range, exists i, lower_bound range comp = Some i /\ 0 <= i <= zlen range) /\
  (forall T (comp : T -> bool) less others, Forall (fun x => comp x = true) less -> Forall (fun x => comp x = false) others ->
   lower_bound (less ++ others) comp = Some (zlen less)).
Proof.
  exact (conj (fun T comp range => match lower_bound_ok comp range with ex_intro _ i (conj E (conj H _)) => ex_intro _ i (conj E H) end)
              (fun T comp less others => lower_bound_split comp less others)).
Qed.
Example C66_lower_bound_ex : lower_bound [1;3;5;7;9] (fun x => x <? 6) = Some 3 /\ lower_bound [1;3] (fun x => x <? 6) = Some 2.
Proof. split; reflexivity. Qed.
(* the limits of an integer type of a given number of bits *)
Theorem C66_int_limits : forall signed bits, 2 <= bits ->
  int_min_value signed bits = (if signed then - 2 ^ (bits - 1) else 0) /\
  int_max_value signed bits = (if signed then 2 ^ (bits - 1) - 1 else 2 ^ bits - 1).
Proof. exact limits_ok. Qed.
Example C66_int_limits_ex : int_min_value true 16 = -32768 /\ int_max_value true 16 = 32767 /\ int_max_value false 8 = 255.
Proof. repeat split. Qed.

(* ---- string views ---- *)
(* v shows text: it has its length, and the memory starts with it *)
Definition views (v : view) (text : list Z) : Prop := v_len v = zlen text /\ exists rest, v_begin v = text ++ rest.
Theorem C66_views : (forall text rest, views (view_range (text ++ rest) (zlen text)) text) /\
  (forall text rest, views (view_len (text ++ rest) (zlen text)) text) /\
  (forall text rest, ~ In 0 text -> exists v, view_cstr (text ++ 0 :: rest) = Some v /\ views v text).
Proof.
  split; [|split].
  - intros text rest. unfold view_range, views. cbn. pose proof (zlen_nonneg text). rewrite (proj2 (Z.leb_le _ _)) by assumption. eauto.
  - intros text rest. unfold view_len, views. cbn. eauto.
  - intros text rest H. unfold view_cstr. rewrite str_length_ok by exact H. eexists. split; [reflexivity|]. unfold views. cbn. eauto.
Qed.
Theorem C66_view_equal : forall v w a b, views v a -> views w b ->
  exists x, view_eq v w = Some x /\ view_ne v w = Some (negb x) /\ (x = true <-> a = b).
Proof.
  intros [m n] [m' n'] a b [E1 [r E2]] [E3 [r' E4]]. cbn in *. subst. unfold view_eq, view_ne. cbn. destruct (Z.eqb_spec (zlen a) (zlen b)) as [L|L]; cbn.
  - unfold zlen in *. apply Nat2Z.inj in L. rewrite Nat2Z.id. destruct (str_equal_ok a b r r' L) as (x & -> & H). exists x. cbn [obind]. auto.
  - exists false. split; [reflexivity|]. split; [reflexivity|]. split; [discriminate|]. intros ->. contradiction.
Qed.
(* with a zero-terminated string on one side *)
Theorem C66_view_equal_cstr : forall v a b rest, views v a -> ~ In 0 b ->
  exists x, view_eq_cstr v (b ++ 0 :: rest) = Some x /\ view_ne_cstr v (b ++ 0 :: rest) = Some (negb x) /\ (x = true <-> a = b).
Proof.
  intros v a b rest H Hb. destruct C66_views as (_ & _ & C). destruct (C b rest Hb) as (w & E & W).
  unfold view_eq_cstr, view_ne_cstr. rewrite E. cbn [obind]. exact (C66_view_equal v w a b H W).
Qed.
Example C66_view_ex : views (mk_view [65;66;67] 2) [65;66] /\ view_eq (mk_view [65;66;67] 2) (mk_view [65;66] 2) = Some true /\
  view_ne_cstr (mk_view [65;66;67] 2) [65;67;0] = Some true.
Proof. split; [split; [reflexivity|exists [67]; reflexivity]|]. split; reflexivity. Qed.
Print Assumptions C66_countl_zero.
Print Assumptions C66_str_length.
Print Assumptions C66_str_find.
Print Assumptions C66_str_equal.
Print Assumptions C66_str_fill_n.
Print Assumptions C66_copy_n.
Print Assumptions C66_lower_bound.
Print Assumptions C66_int_limits.
Print Assumptions C66_views.
Print Assumptions C66_view_equal.
Print Assumptions C66_view_equal_cstr.
