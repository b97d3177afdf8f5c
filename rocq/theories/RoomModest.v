(* Integers never ask ensure() for more than 64 units (destination.hpp:44). *)
From Verif Require Import Base WidthModel WidthProofs DestModel DestProofs GroupSpec GroupModel GroupProofs GroupDist
  DigitsSpec DigitsModel DigitsCount DigitsProofs UtfSpec UtfForms CharsetModel IntSpec IntModel IntProofs IntOverflow RoomProofs.

Local Lemma some_inj {A} (a b : A) : Some a = Some b -> a = b.
Proof. congruence. Qed.
Lemma binary_int_shape F gs rep f al sgn s v : facets_ok F gs rep -> in_int sgn (sbits s) v -> align_ok (align_of al) -> opts_ok (opts_of f) ->
  fmt_base f = B2 -> o_punct (opts_of f) = true ->
  let r := request_of F gs rep f al sgn s v in
  (if_sep F B2 < 0x80 \/ cs_validate (if_cs F) (if_sep F B2) <> -1) -> zlen (rq_sep r) = 1 -> n_seps r <> 0 ->
  exists p before first rest, int_print F f al sgn s v = Some p /\ pr_ops p = before ++ OReserve 0 first :: rest /\ Forall op_wf before /\ Forall op_wf rest /\
    (1 <= length first <= 64)%nat /\ ops_text (pr_ops p) = int_text r.
Proof.
  intros [K Hg Hs] Hv Hal [Ho1 Ho2] Eb Hpu r Hsep H1 Hn.
  destruct f as [|b sign sb|b punct pr pd sign sb|n pr pd sign sb punct]; cbn [opts_of o_punct] in Hpu; try discriminate; subst punct; cbn [fmt_base] in Eb.
  - subst b. exact (binary_shape F (opts_of (FStatic B2 true pr pd sign sb)) (align_of al) sgn s v (gs B2) (rep B2) (if_sep F B2) (if_grouping F B2)
        K eq_refl Hv Hal Ho1 Ho2 (Hs B2) (Hg B2) eq_refl Hsep H1 Hn).
  - assert (Er : r = request (if_case F) sgn (sbits s) v (opts_of (FDyn n pr pd sign sb true)) (cs_encode (if_cs F) (if_sep F B2)) (boundary (gs B2) (rep B2))
        (cs_encode (if_cs F) (al_fill (align_of al))) (w_round (al_width (align_of al))) (al_align (align_of al))).
    { unfold r, request_of. cbn [fmt_base]. rewrite Eb. reflexivity. }
    cbn [int_print]. rewrite Eb. cbn [fmt_base]. rewrite Er in Hn, H1 |- *.
    refine (binary_shape F (opts_of (FDyn n pr pd sign sb true)) (align_of al) sgn s v (gs B2) (rep B2) (if_sep F B2) (if_grouping F B2)
        K _ Hv Hal Ho1 Ho2 (Hs B2) (Hg B2) eq_refl Hsep H1 Hn). cbn [opts_of o_base]. rewrite Eb. reflexivity.
Qed.
Lemma modest_int F gs rep f al sgn s v p : facets_ok F gs rep -> in_int sgn (sbits s) v -> align_ok (align_of al) -> opts_ok (opts_of f) ->
  int_print F f al sgn s v = Some p -> Forall modest (pr_ops p).
Proof.
  intros HF Hv HA HO E. set (r := request_of F gs rep f al sgn s v).
  assert (DS : sep_ok F f r \/ ~ sep_ok F f r) by (unfold sep_ok; lia). destruct DS as [DS|DS].
  2: { destruct (int_print_bad_sep F gs rep f al sgn s v HF Hv HA HO DS) as (q & E' & _ & W). rewrite E in E'. apply some_inj in E'. subst q. apply wf_modest; exact W. }
  destruct (int_print_ok F gs rep f al sgn s v HF Hv HA HO DS) as (q & E' & _ & W). rewrite E in E'. apply some_inj in E'. subst q. fold r in W.
  assert (D2 : (fmt_base f = B2 /\ zlen (rq_sep r) = 1 /\ n_seps r <> 0) \/ (fmt_base f = B2 -> zlen (rq_sep r) <> 1 \/ n_seps r = 0)).
  { assert (X : fmt_base f = B2 \/ fmt_base f <> B2) by (destruct (fmt_base f); auto; right; discriminate). destruct X as [X|X]; [|right; intros; contradiction].
    destruct (Z.eq_dec (zlen (rq_sep r)) 1), (Z.eq_dec (n_seps r) 0); auto. }
  destruct D2 as [(Eb & H1 & Hn)|D2].
  - assert (Hpu : o_punct (opts_of f) = true).
    { destruct (o_punct (opts_of f)) eqn:P; [reflexivity|exfalso]. apply Hn. unfold n_seps, r, request_of, request; cbn [rq_boundary]. rewrite P. apply below_none. reflexivity. }
    assert (Hs : if_sep F B2 < 0x80 \/ cs_validate (if_cs F) (if_sep F B2) <> -1) by (unfold sep_ok in DS; rewrite Eb in DS; destruct DS as [|[|]]; auto; contradiction).
    destruct (binary_int_shape F gs rep f al sgn s v HF Hv HA HO Eb Hpu Hs H1 Hn) as (q & before & first & rest & E' & EO & W1 & W2 & LF & _).
    rewrite E in E'. apply some_inj in E'. subst q. rewrite EO. apply Forall_app. split; [apply wf_modest; exact W1|]. constructor; [cbn; lia|apply wf_modest; exact W2].
  - assert (D1 : (exists sg sb, al = None /\ f = FNoPad B10 sg sb) \/ (al = None -> forall sg sb, f <> FNoPad B10 sg sb)).
    { destruct al; [right; discriminate|]. destruct f as [|[| | |] sg sb| |]; try (right; intros _ ? ?; discriminate). left. eauto. }
    destruct D1 as [(sg & sb & -> & ->)|D1].
    + rewrite (sign_only_ops (if_clz F) (if_case F) sg sb sgn s v p Hv E). constructor; [cbn; lia|constructor].
    + apply wf_modest, W. split; assumption.
Qed.
