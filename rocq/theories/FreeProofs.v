From Verif Require Import Base FreeModel.
From Coq Require Import List.

Lemma slow_countl_ok x : 0 <= x < 2 ^ 64 ->
  let r := slow_countl_zero_ll x in 0 <= r <= 64 /\ x < 2 ^ (64 - r) /\ (x <> 0 -> 2 ^ (63 - r) <= x).
Proof.
  intros H. unfold slow_countl_zero_ll.
  repeat match goal with |- context [if ?a <=? ?b then _ else _] => destruct (Z.leb_spec a b) | |- context [if ?a =? ?b then _ else _] => destruct (Z.eqb_spec a b) end;
  cbv zeta; (split; [split; discriminate|]); (split; [|intros HN]);
  match goal with |- ?l < 2 ^ ?e => let v := eval compute in (2 ^ e) in change (2 ^ e) with v; lia | |- 2 ^ ?e <= _ => let v := eval compute in (2 ^ e) in change (2 ^ e) with v; lia end.
Qed.
Lemma str_length_ok text rest : ~ In 0 text -> str_length (text ++ 0 :: rest) = Some (zlen text).
Proof.
  induction text as [|c text IH]; intros H; [reflexivity|]. cbn [app str_length]. destruct (Z.eqb_spec c 0); [exfalso; apply H; left; assumption|].
  rewrite IH by (intros HI; apply H; right; exact HI). cbn [obind]. rewrite zlen_cons. reflexivity.
Qed.
Lemma str_length_none str : str_length str = None <-> ~ In 0 str.
Proof.
  induction str as [|c str IH]; cbn [str_length]; [tauto|]. destruct (Z.eqb_spec c 0) as [->|N].
  - split; [discriminate|]. intros H. exfalso. apply H. left. reflexivity.
  - destruct (str_length str); cbn [obind].
    + split; [discriminate|]. intros H. assert (~ In 0 str) as HN by (intros HI; apply H; right; exact HI). apply IH in HN. discriminate.
    + split; [|reflexivity]. intros _ [->|HI]; [congruence|]. exact (proj1 IH eq_refl HI).
Qed.
Lemma str_find_ok text rest ch : exists r, str_find (text ++ rest) (length text) ch = Some r /\
  match r with None => ~ In ch text | Some i => nth_error text i = Some ch /\ ~ In ch (firstn i text) end.
Proof.
  induction text as [|c text IH]; cbn [app length str_find].
  - exists None. split; [reflexivity|intros []].
  - destruct (Z.eqb_spec c ch) as [->|N].
    + exists (Some O). split; [reflexivity|]. split; [reflexivity|intros []].
    + destruct IH as (r & -> & H). cbn [obind]. exists (option_map S r). split; [reflexivity|]. destruct r as [i|]; cbn [option_map].
      * destruct H as [H1 H2]. split; [exact H1|]. cbn [firstn]. intros [?|?]; [congruence|contradiction].
      * intros [?|?]; [congruence|contradiction].
Qed.
Lemma str_equal_ok a : forall b r r', length a = length b -> exists x, str_equal (a ++ r) (b ++ r') (length a) = Some x /\ (x = true <-> a = b).
Proof.
  induction a as [|c a IH]; intros [|d b] r r' L; try discriminate L; cbn [app length str_equal].
  - exists true. tauto.
  - destruct (Z.eqb_spec c d) as [->|N]; cbn [negb].
    + destruct (IH b r r') as (x & -> & H); [cbn in L; congruence|]. exists x. split; [reflexivity|]. rewrite H. split; [congruence|intros [=]; auto].
    + exists false. split; [reflexivity|]. split; [discriminate|intros [=]; contradiction].
Qed.
Lemma fill_ok a : forall rest v, fill_loop (a ++ rest) (length a) v = Some (repeat v (length a) ++ rest).
Proof. induction a as [|c a IH]; intros rest v; [reflexivity|]. cbn [app length fill_loop repeat]. rewrite IH. reflexivity. Qed.
Lemma copy_ok conv a : forall b r rest, length b = length a -> copy_n conv (a ++ r) (length a) (b ++ rest) = Some (map conv a ++ rest).
Proof. induction a as [|c a IH]; intros [|d b] r rest L; try discriminate L; [reflexivity|]. cbn [app length copy_n map]. rewrite IH by (cbn in L; congruence). reflexivity. Qed.

Lemma nth_ex {A} (l : list A) i : 0 <= i < zlen l -> exists x, nth_error l (Z.to_nat i) = Some x.
Proof. intros H. destruct (nth_error l (Z.to_nat i)) as [x|] eqn:E; [eauto|]. apply nth_error_None in E. unfold zlen in H. lia. Qed.
(* whatever the comparison, the result is a place where it changes *)
Lemma lower_bound_gen_ok {T} (comp : T -> bool) a : forall fuel first len, (Z.to_nat len < fuel)%nat -> 0 <= first -> 0 <= len -> first + len <= zlen a ->
  (first = 0 \/ exists e, nth_error a (Z.to_nat (first - 1)) = Some e /\ comp e = true) ->
  (first + len = zlen a \/ exists e, nth_error a (Z.to_nat (first + len)) = Some e /\ comp e = false) ->
  exists i, lower_bound_gen fuel comp a first len = Some i /\ 0 <= i <= zlen a /\
    (i = 0 \/ exists e, nth_error a (Z.to_nat (i - 1)) = Some e /\ comp e = true) /\
    (i = zlen a \/ exists e, nth_error a (Z.to_nat i) = Some e /\ comp e = false).
Proof.
  induction fuel as [|fuel IH]; intros first len HF H0 H1 H2 HA HB; [lia|]. cbn [lower_bound_gen]. destruct (Z.leb_spec len 0).
  - exists first. replace (first + len) with first in * by lia. split; [reflexivity|]. split; [lia|]. auto.
  - assert (HH : 0 <= len / 2 < len) by lia. destruct (nth_ex a (first + len / 2)) as [e E]; [lia|]. rewrite E. cbn [obind]. destruct (comp e) eqn:C.
    + apply IH; try lia.
      * right. exists e. split; [|exact C]. rewrite <- E. do 2 f_equal. lia.
      * replace (first + len / 2 + 1 + (len - (len / 2 + 1))) with (first + len) by lia. exact HB.
    + apply IH; try lia; [exact HA|]. right. exists e. auto.
Qed.
Lemma lower_bound_ok {T} (comp : T -> bool) a : exists i, lower_bound a comp = Some i /\ 0 <= i <= zlen a /\
    (i = 0 \/ exists e, nth_error a (Z.to_nat (i - 1)) = Some e /\ comp e = true) /\
    (i = zlen a \/ exists e, nth_error a (Z.to_nat i) = Some e /\ comp e = false).
Proof. apply lower_bound_gen_ok; unfold zlen; try lia; left; reflexivity. Qed.
Lemma lower_bound_split {T} (comp : T -> bool) lo hi : Forall (fun x => comp x = true) lo -> Forall (fun x => comp x = false) hi -> lower_bound (lo ++ hi) comp = Some (zlen lo).
Proof.
  intros HL HH. destruct (lower_bound_ok comp (lo ++ hi)) as (i & -> & Hi & HA & HB). f_equal.
  assert (K : forall j e, nth_error (lo ++ hi) j = Some e -> comp e = (j <? length lo)%nat).
  { intros j e E. destruct (Nat.ltb_spec j (length lo)).
    - rewrite nth_error_app1 in E by assumption. apply (proj1 (Forall_forall _ _) HL), (nth_error_In _ _ E).
    - rewrite nth_error_app2 in E by assumption. apply (proj1 (Forall_forall _ _) HH), (nth_error_In _ _ E). }
  unfold zlen in *. rewrite app_length in *.
  destruct (Z.lt_trichotomy i (Z.of_nat (length lo))) as [L|[L|L]]; [|exact L|].
  - exfalso. destruct HB as [HB|(e & E & C)]; [lia|]. rewrite (K _ _ E) in C. apply Nat.ltb_ge in C. lia.
  - exfalso. destruct HA as [HA|(e & E & C)]; [lia|]. rewrite (K _ _ E) in C. apply Nat.ltb_lt in C. lia.
Qed.
Lemma limits_ok signed bits : 2 <= bits -> int_min_value signed bits = (if signed then - 2 ^ (bits - 1) else 0) /\
  int_max_value signed bits = (if signed then 2 ^ (bits - 1) - 1 else 2 ^ bits - 1).
Proof.
  intros H. assert (E : 2 ^ bits = 2 * 2 ^ (bits - 1)) by (rewrite <- Z.pow_succ_r by lia; f_equal; lia). assert (1 < 2 ^ (bits - 1)) by (apply Z.pow_gt_1; lia).
  unfold int_min_value, int_max_value, to_i, to_u. set (h := 2 ^ (bits - 1)) in *. rewrite E.
  assert (M1 : (-1) mod (2 * h) = 2 * h - 1) by (symmetry; apply (Z.mod_unique _ _ (-1)); lia).
  destruct signed; [|split; [reflexivity|exact M1]]. rewrite M1. rewrite Z.shiftl_mul_pow2, Z.mul_1_l by lia. fold h. rewrite Z.shiftr_div_pow2 by lia. change (2 ^ 1) with 2.
  replace ((2 * h - 1) / 2) with (h - 1) by (apply (Z.div_unique _ _ _ 1); lia).
  split.
  - replace (h + h) with (0 + 1 * (2 * h)) by lia. rewrite Z.mod_add, Z.mod_0_l by lia. lia.
  - rewrite Z.mod_small by lia. lia.
Qed.
