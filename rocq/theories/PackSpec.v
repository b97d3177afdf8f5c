(* Facets packs, as documented: docs/ref_facets_pack.adoc, docs/tutorial.adoc "Facets". *)
From Verif Require Import Base.

(* A facets pack element: a facet of a category with a value; a pack; an element constrained
   to the tag types (the types of printable arguments) accepted by a filter; a reference.
   Categories, values and tag types are numbered. *)
Inductive fpe := Facet (category value : Z) | Pack (l : list fpe) | Constrained (filter : Z -> bool) (e : fpe) | Ref (e : fpe).

(* the facets in it from left to right, each with all the filters it is under *)
Record leaf := mk_leaf { lf_filters : list (Z -> bool); lf_category : Z; lf_value : Z }.
Definition under (f : Z -> bool) (x : leaf) : leaf := mk_leaf (f :: lf_filters x) (lf_category x) (lf_value x).
Fixpoint leaves (e : fpe) : list leaf :=
  match e with
  | Facet c v => [mk_leaf [] c v]
  | Pack l => flat_map leaves l
  | Constrained f e' => map (under f) (leaves e')
  | Ref e' => leaves e'
  end.
Definition accepts (category tag : Z) (x : leaf) : bool := (lf_category x =? category) && forallb (fun f => f tag) (lf_filters x).
(* the rightmost one of the category whose filters all accept the tag *)
Definition rightmost (category tag : Z) (l : list leaf) : option Z := option_map lf_value (find (accepts category tag) (rev l)).
