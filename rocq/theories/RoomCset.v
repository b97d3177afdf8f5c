(* Transcoding into a destination that has room for the text. *)
From Verif Require Import Base DestModel DestProofs UtfSpec UtfForms CharsetModel TransSpec PivotModel PivotProofs SbcsModel CsetModel CsetProofs Properties_Pivot UnsafeProofs RoomProofs.

Lemma transcode_into_room {S} (ops : dest_ops S) R ok : room_laws ops R ok ->
  forall a b fl src cps out s t, is_cset a -> is_cset b -> unit_text a src -> no_stop fl ->
  text_in a (f_lax fl) src cps -> Forall2 (encoded_in b) cps out -> R s t -> ok (t ++ concat out) ->
  exists s' r, transcode_into ops a b fl s src = Some (s', r) /\ R s' (t ++ concat out).
Proof.
  intros L a b fl src cps out s t HA HB HU HN HT HE HR K. unfold transcode_into.
  destruct (direct a b) as [func|] eqn:ED.
  - destruct (direct_text a b func fl src cps out HA HB ED HU HN HT HE) as (l & Hl & HL & HS & HNs & HO). rewrite <- HO in K |- *.
    destruct (room_transcode ops R ok L (func fl) (Datatypes.S (Datatypes.S (length src))) l s t HS HNs HR K ltac:(lia)) as (s' & z & E & H1).
    rewrite Hl in E. rewrite E. cbn [obind fst snd]. eauto.
  - destruct (decoding_text a fl src cps HA HU HN HT) as (l & Hl & HL & HD & HNs & HO).
    pose proof (nostop_full l HNs) as EF.
    assert (HP : Forall (fun c => 0 <= c) cps).
    { rewrite <- HO. pose proof (decoding_outs _ _ (proj2 HD)) as [X _]. eapply Forall_impl; [|exact X]. intros c [Hc _]. lia. }
    pose proof (outs_encoded b fl cps out HB HP HE) as EO. rewrite <- EO in K |- *.
    destruct (room_decode_encode ops R ok L _ _ _ _ (Datatypes.S (length src)) l s t (cset_encoding b fl HB) HD) as (s' & r & E & H1).
    { rewrite EF. reflexivity. } { rewrite EF. cbn [r_out]. rewrite HO. apply enc_step_nostop. exact HN. } { exact HR. }
    { rewrite EF. cbn [r_out]. rewrite HO. exact K. } { lia. }
    rewrite EF in H1. cbn [r_out] in H1. rewrite HO in H1. rewrite Hl in E. eauto.
Qed.
Lemma unsafe_into_room {S} (ops : dest_ops S) R ok : room_laws ops R ok ->
  forall a b fl src cps out s t, is_cset a -> is_cset b -> unit_text a src -> no_stop fl ->
  well_formed_in a (f_lax fl) src -> text_in a (f_lax fl) src cps -> Forall2 (encoded_in b) cps out -> R s t -> ok (t ++ concat out) ->
  exists s' r, unsafe_into ops a b fl s src = Some (s', r) /\ R s' (t ++ concat out).
Proof.
  intros L a b fl src cps out s t HA HB HU HN HW HT HE HR K. unfold unsafe_into.
  destruct (direct_unsafe a b) as [func|] eqn:ED.
  - destruct (direct_unsafe_text a b func fl src cps out HA HB ED HU HN HW HT HE) as (l & Hl & HL & HS & HNs & HO). rewrite <- HO in K |- *.
    destruct (room_transcode ops R ok L (func fl) (Datatypes.S (Datatypes.S (length src))) l s t HS HNs HR K ltac:(lia)) as (s' & z & E & H1).
    rewrite Hl in E. rewrite E. cbn [obind fst snd]. eauto.
  - destruct (unsafe_decoding_text a fl src cps HA HU HN HW HT) as (l & Hl & HL & HD & HF & HP).
    pose proof (outs_encoded b fl cps out HB HP HE) as EO. rewrite <- EO in K |- *.
    destruct (room_decode_encode ops R ok L _ _ _ _ (Datatypes.S (length src)) l s t (cset_encoding b fl HB) HD) as (s' & r & E & H1).
    { rewrite HF. reflexivity. } { rewrite HF. cbn [r_out]. apply enc_step_nostop. exact HN. } { exact HR. }
    { rewrite HF. exact K. } { lia. }
    rewrite HF in H1. cbn [r_out] in H1. rewrite Hl in E. eauto.
Qed.
