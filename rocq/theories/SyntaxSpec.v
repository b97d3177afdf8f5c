(* What a printing expression is documented to print: docs/reference, "The printing syntax". *)
From Verif Require Import Base PrintModel PrintSpec PackSpec SyntaxModel.

(* the facet of a category for a type: the rightmost one that accepts the type, or the default *)
Definition facet_for (get_default : Z -> Z) (ls : list leaf) (category tag : Z) : Z :=
  match rightmost category tag ls with Some v => v | None => get_default category end.

(* [shows ls p d]: under the facets ls, the printable p has text and width d.
   - A printable whose type can be overridden, and for whose representative there is an
     overrider facet other than dont_override, is printed by that facet; any other one by its
     own definition.  What either prints depends on the facets only.
   - strf::with(child...)(args...) prints args... one after the other with the facets child...
     to the right of the others; child... must all be of constrainable categories. *)
Definition from_facets (get_default : Z -> Z) (M : option Z) (f : fpe -> arg) (d : (Z -> Z -> Z) -> desc) : Prop :=
  forall l, arg_ok M (f (Pack l)) (d (facet_for get_default (flat_map leaves l))).
Inductive shows (get_default : Z -> Z) (constrainable : Z -> bool) (M : option Z) : list leaf -> printable -> desc -> Prop :=
| shows_own : forall ls p d, from_facets get_default M (pl_arg p) d ->
    pl_overridable p = false \/ facet_for get_default ls (pl_category p) (pl_representative p) = dont_override ->
    shows get_default constrainable M ls (Plain p) (d (facet_for get_default ls))
| shows_override : forall ls p d, let v := facet_for get_default ls (pl_category p) (pl_representative p) in
    from_facets get_default M (pl_override p v) d ->
    pl_overridable p = true -> v <> dont_override ->
    shows get_default constrainable M ls (Plain p) (d (facet_for get_default ls))
| shows_inner : forall ls child args ds,
    (forall x, In x (flat_map leaves child) -> lf_filters x = [] -> constrainable (lf_category x) = true) ->
    shows_all get_default constrainable M (ls ++ flat_map leaves child) args ds ->
    shows get_default constrainable M ls (Inner child args) (join_desc ds)
with shows_all (get_default : Z -> Z) (constrainable : Z -> bool) (M : option Z) : list leaf -> list printable -> list desc -> Prop :=
| shows_nil : forall ls, shows_all get_default constrainable M ls [] []
| shows_cons : forall ls p ps d ds, shows get_default constrainable M ls p d -> shows_all get_default constrainable M ls ps ds ->
    shows_all get_default constrainable M ls (p :: ps) (d :: ds).
Scheme shows_rec := Minimality for shows Sort Prop with shows_all_rec := Minimality for shows_all Sort Prop.
Combined Scheme shows_mut from shows_rec, shows_all_rec.

(* the facets a chain of calls gives, from left to right *)
Definition with_facets (q : chain_call) : list fpe := match q with QWith l => l | _ => [] end.
(* the last call about reserving *)
Definition reserve_of (q : chain_call) : option reserving :=
  match q with
  | QWith _ => None | QNoReserve => Some NoReserve | QReserveCalc => Some CalcSize
  | QReserve n => Some (GivenSpace (Z.max 0 n)) | QReserveGivenSpace n => Some (GivenSpace (n mod 2 ^ 64))
  end.
Definition last_reserve (qs : list chain_call) : reserving :=
  fold_left (fun x q => match reserve_of q with Some y => y | None => x end) qs NoReserve.

(* a destination class for which [P text result] says what finish() returns after text was
   sent to a new destination *)
Definition dest_keeps {Res} (D : dest_desc Res) (P : list Z -> Res -> Prop) : Prop :=
  forall pr t, prints_text pr t -> exists r, on_dest D pr = Some r /\ P t r.
Definition creator_keeps {Res} (c : creator Res) (P : list Z -> Res -> Prop) : Prop :=
  dest_keeps (cr_unsized c) P /\ match cr_sized c with Some D => forall n, 0 <= n -> dest_keeps (D n) P | None => True end.
