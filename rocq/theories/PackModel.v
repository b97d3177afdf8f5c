(* Facets packs: include/strf/facets_pack.hpp, include/strf/detail/printable_types/facets_pack.hpp,
   include/strf/printing_syntax.hpp:351-404.  What the compiler selects: C++14 or later (before, the
   declared type in fpe_traits<facets_pack>::get_facet, 193, has a typo, Cat.Tag). *)
From Verif Require Import Base PackSpec.

Section Pack.
  (* Category::get_default(); Category::constrainable, true if absent: get_constrainable, 67-76 *)
  Variables (get_default : Z -> Z) (constrainable : Z -> bool).

  (* fpe_traits<...>::has_facet, 185-189 (facets_pack, fold_or), 209-213 (reference), 234-238
     (constrained_fpe), 258-262 (facet) *)
  Fixpoint has_facet (category tag : Z) (e : fpe) : bool :=
    match e with
    | Facet c _ => c =? category
    | Pack l => fold_right (fun e b => has_facet category tag e || b) false l
    | Constrained f e' => f tag && has_facet category tag e'
    | Ref e' => has_facet category tag e'
    end.

  (* Overload resolution between the do_get_facet functions: the one of the wrapper of rank i is
     viable if the wrapper has the facet (300-307, 361-370, 399-410, 462-471); as rank<N> derives
     from rank<N - 1> ... (strf_def.hpp:309-326), the conversion to the greatest rank is the best
     one; the function of facets_pack itself, 718-725, is the worst *)
  Definition best_overload (new : nat * Z) (best : option (nat * Z)) : option (nat * Z) :=
    match best with
    | None => Some new
    | Some b => if (fst b <? fst new)%nat then Some new else Some b
    end.
  (* facets_pack<FPE...>::get_facet, 747-760; fpe_traits<...>::get_facet, 191-197, 215-221, 240-248, 264-268;
     the index of a wrapper is its rank: 526-536 *)
  Fixpoint get_facet (category tag : Z) (e : fpe) : Z :=
    match e with
    | Facet _ v => v
    | Pack l =>
        match (fix scan (rank : nat) (l : list fpe) (best : option (nat * Z)) : option (nat * Z) :=
                 match l with
                 | [] => best
                 | e' :: l' =>
                     scan (S rank) l' (if has_facet category tag e' then best_overload (rank, get_facet category tag e') best else best)
                 end) O l None with
        | Some (_, v) => v
        | None => get_default category
        end
    | Constrained _ e' => get_facet category tag e'
    | Ref e' => get_facet category tag e'
    end.

  (* is_constrainable, 199-200, 223-224, 250, 270 *)
  Fixpoint is_constrainable (e : fpe) : bool :=
    match e with
    | Facet c _ => constrainable c
    | Pack l => fold_right (fun e b => is_constrainable e && b) true l
    | Constrained _ _ => true
    | Ref e' => is_constrainable e'
    end.
  (* static_assert in constrained_fpe, 653: the element can be built *)
  Fixpoint well_formed_fpe (e : fpe) : bool :=
    match e with
    | Facet _ _ => true
    | Pack l => fold_right (fun e b => well_formed_fpe e && b) true l
    | Constrained _ e' => well_formed_fpe e' && is_constrainable e'
    | Ref e' => well_formed_fpe e'
    end.

  (* facets_pack(merge_1st, fp, fpes...), 796-855, used by printing_syntax::with, printing_syntax.hpp:361-403:
     the elements of fp (get_element), then the new ones.  get_element of a constrained element is
     the unconstrained one, from which the constrained element cannot be built implicitly: None *)
  Definition element (e : fpe) : option fpe := match e with Constrained _ _ => None | _ => Some e end.
  (* facets_pack.hpp:796-820: get_element<I>()... of fp *)
  Fixpoint elements (l : list fpe) : option (list fpe) :=
    match l with [] => Some [] | e :: l' => do x <- element e ; do r <- elements l' ; Some (x :: r) end.
  (* facets_pack.hpp:834-855 *)
  Definition merge_1st (fp new : list fpe) : option (list fpe) := do r <- elements fp ; Some (r ++ new).
  (* strf::with(child...)(args...): printable_types/facets_pack.hpp:52-82: pack(parent, child) *)
  Definition inner_pack (parent : fpe) (child : list fpe) : option fpe :=
    if is_constrainable (Pack child) then Some (Pack [parent; Pack child]) else None.
End Pack.
