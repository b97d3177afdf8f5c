(* Common vocabulary of the model: machine-integer conversions, undefined
   behaviour as [None], lists of code units.

   Models the integer casts of include/strf/detail/strf_def.hpp:391-449
   (cast_i16, cast_u16, cast_i32, cast_u32, cast_i64, cast_u64), which are
   static_casts, i.e. two's complement truncation, and the C++ rule that signed
   overflow is undefined. *)
From Coq Require Export ZArith List Lia Bool.
From Coq Require Export ZifyBool.
Export ListNotations.
Open Scope Z_scope.

Ltac Zify.zify_post_hook ::= Z.div_mod_to_equations.

(* Conversion to an unsigned type of [n] bits. *)
Definition to_u (n x : Z) : Z := x mod 2 ^ n.
(* Conversion to a signed two's complement type of [n] bits. *)
Definition to_i (n x : Z) : Z := (x + 2 ^ (n - 1)) mod 2 ^ n - 2 ^ (n - 1).

Definition in_u (n x : Z) : bool := (0 <=? x) && (x <? 2 ^ n).
Definition in_i (n x : Z) : bool := (- 2 ^ (n - 1) <=? x) && (x <? 2 ^ (n - 1)).

(* Result of a signed arithmetic operation on [n] bits: [None] is the C++
   undefined behaviour of signed overflow. *)
Definition chk_i (n x : Z) : option Z := if in_i n x then Some x else None.

Definition obind {A B} (o : option A) (f : A -> option B) : option B :=
  match o with Some a => f a | None => None end.
Notation "'do' x <- e1 ; e2" := (obind e1 (fun x => e2))
  (at level 200, x name, e1 at level 100, e2 at level 200, right associativity).

Lemma to_u_id n x : 0 <= x < 2 ^ n -> to_u n x = x.
Proof. intros H; unfold to_u; apply Z.mod_small; exact H. Qed.

Lemma to_i_id n x : 0 < n -> - 2 ^ (n - 1) <= x < 2 ^ (n - 1) -> to_i n x = x.
Proof.
  intros Hn H; unfold to_i.
  replace (2 ^ n) with (2 * 2 ^ (n - 1)).
  - rewrite Z.mod_small; lia.
  - rewrite <- Z.pow_succ_r by lia. f_equal; lia.
Qed.

Lemma obind_some {A B} (o : option A) (f : A -> option B) b :
  obind o f = Some b -> exists a, o = Some a /\ f a = Some b.
Proof. destruct o; cbn; intros H; [eauto | discriminate]. Qed.

(* Prefix of a list, as an independent relation. *)
Definition is_prefix {A} (p l : list A) : Prop := exists r, l = p ++ r.

Lemma is_prefix_refl {A} (l : list A) : is_prefix l l.
Proof. exists []; symmetry; apply app_nil_r. Qed.
Lemma is_prefix_app_r {A} (p l r : list A) : is_prefix p l -> is_prefix p (l ++ r).
Proof. intros [q ->]; exists (q ++ r); symmetry; apply app_assoc. Qed.
Lemma is_prefix_nil {A} (l : list A) : is_prefix [] l.
Proof. exists l; reflexivity. Qed.

Definition zlen {A} (l : list A) : Z := Z.of_nat (length l).
Lemma zlen_nonneg {A} (l : list A) : 0 <= zlen l.
Proof. unfold zlen; lia. Qed.
Lemma zlen_app {A} (l r : list A) : zlen (l ++ r) = zlen l + zlen r.
Proof. unfold zlen; rewrite app_length; lia. Qed.
Lemma zlen_cons {A} (x : A) l : zlen (x :: l) = 1 + zlen l.
Proof. unfold zlen; cbn [length]; lia. Qed.
Lemma zlen_nil {A} : zlen (@nil A) = 0.
Proof. reflexivity. Qed.
Lemma zlen_repeat {A} (x : A) n : zlen (repeat x n) = Z.of_nat n.
Proof. unfold zlen; rewrite repeat_length; reflexivity. Qed.
