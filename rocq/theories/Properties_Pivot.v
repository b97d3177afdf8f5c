(* C28: transcoding between any two charsets. *)
From Verif Require Import Base DestModel DestProofs UtfSpec UtfModel UtfForms UtfLoop UtfDecode UtfTheorems
  TransSpec SbcsTables SbcsModel SbcsProofs PivotModel PivotProofs PivotExact CsetModel CsetProofs.

(* [a], [b]: UTF-8, UTF-16, UTF-32 or one of the 25 single-byte charsets.
   Decoding everything at once: as many code points as source units are enough. *)
Definition decode_all (a : cset) (fl : flags) (src : list Z) : option tr_result := to_u32_of a fl src (zlen src).

(* How the pivot version ends, given how decoding everything [d] and then encoding it [e]
   end.  If e stops early, then decoding again from [stale] and skipping [dist] code points
   leads to the first code point that was not encoded. *)
Definition pivot_end (a : cset) (fl : flags) (pivot : Z) (src : list Z) (d e : tr_result) (why : reason) (stale : list Z) (dist : Z) : Prop :=
  (r_reason e = RCompleted -> why = r_reason d /\ stale = r_rest d /\ dist = 0) /\
  (r_reason e <> RCompleted -> why = r_reason e /\ 0 <= dist < pivot /\
     exists before d', src = before ++ stale /\ decode_all a fl stale = Some d' /\
       r_rest e = skipn (Z.to_nat dist) (r_out d')).

Lemma pivot_end_intro a b fl pivot src l space why stale dist : is_cset a -> is_cset b -> 0 <= space -> srcs l = src -> (length l <= length src)%nat ->
  decoding (valid_cp (f_lax fl)) (to_u32_of a fl) l ->
  (forall l', (exists p, l = p ++ l') -> (length l' <= length (srcs l'))%nat) ->
  let d := full l in let e := run_steps (map (enc_step_of b fl) (r_out d)) space in
  (r_reason e = RCompleted -> why = r_reason d /\ stale = r_rest d /\ dist = 0) ->
  (r_reason e <> RCompleted -> why = r_reason e /\
     exists pre suf, l = pre ++ suf /\ Forall nostop pre /\ stale = srcs suf /\ 0 <= dist < pivot /\
       zlen pre + dist = zlen (r_out d) - zlen (r_rest e)) ->
  pivot_end a fl pivot src d e why stale dist.
Proof.
  intros HA HB Hs Hsrc HL HD Hlen d e H1 H2. split; [exact H1|]. intros HC. destruct (H2 HC) as (-> & pre & suf & El & Hn & -> & Hd & Hz).
  split; [reflexivity|]. split; [exact Hd|].
  assert (HDs : decoding (valid_cp (f_lax fl)) (to_u32_of a fl) suf) by (rewrite El in HD; eapply decoding_suffix; exact HD).
  exists (srcs pre), (full suf). split; [rewrite <- Hsrc, El; apply PivotProofs.srcs_app|]. split.
  { unfold decode_all. apply (decoding_full _ _ _ _ HDs); [|apply zlen_nonneg]. specialize (Hlen suf (ex_intro _ pre El)). unfold zlen. lia. }
  assert (Ed : r_out d = outs pre ++ r_out (full suf)) by (unfold d; rewrite El, full_app by exact Hn; reflexivity).
  assert (Ep : zlen (outs pre) = zlen pre).
  { destruct HD as [_ HD]. rewrite El in HD. apply Forall_app in HD as [HD _]. apply (decoding_outs _ _ HD). }
  destruct (enc_cut _ _ _ (r_out d) space (cset_encoding b fl HB) Hs) as (c1 & c2 & Ec & _ & _ & _ & Er & _). fold e in Er.
  rewrite Er in *. rewrite Ec, zlen_app in Hz. rewrite Ec in Ed. clear - Ed Hz Ep Hd.
  assert (E : c2 = skipn (Z.to_nat (zlen c1)) (outs pre ++ r_out (full suf))).
  { rewrite <- Ed. rewrite skipn_app. unfold zlen. rewrite Nat2Z.id, skipn_all, Nat.sub_diag. reflexivity. }
  rewrite E. rewrite skipn_app. rewrite skipn_all2 by (unfold zlen in *; lia). cbn [app]. f_equal. unfold zlen in *. lia.
Qed.
Lemma cset_decoding_len a fl src : is_cset a -> unit_text a src -> exists l, srcs l = src /\ (length l <= length src)%nat /\
  decoding (valid_cp (f_lax fl)) (to_u32_of a fl) l /\ forall l', (exists p, l = p ++ l') -> (length l' <= length (srcs l'))%nat.
Proof.
  destruct a as [f|i cs]; intros HC HU.
  - destruct (items_exist_of f (f_lax fl) src HU) as [its HI]. exists (item_steps f U32 (f_stop_invalid fl) its).
    destruct (utf_decoding f fl src its HU HI) as [H1 H2]. split; [exact H1|].
    split; [unfold item_steps; rewrite map_length; eapply items_length_of; exact HI|]. split; [exact H2|].
    intros l' [p E]. unfold item_steps in E. apply map_eq_app in E as (p' & s & -> & _ & <-).
    fold (item_steps f U32 (f_stop_invalid fl) s). rewrite srcs_items. unfold item_steps. rewrite map_length.
    eapply items_length_of. eapply items_suffix. exact HI.
  - exists (map (to_step cs fl) src). destruct (sb_decoding i cs fl src HC HU) as [H1 H2]. split; [exact H1|].
    split; [rewrite map_length; lia|]. split; [exact H2|]. intros l' [p E]. apply map_eq_app in E as (p' & s & -> & _ & <-).
    rewrite srcs_units by reflexivity. rewrite map_length. lia.
Qed.

(* the pivot version writes what decoding everything and encoding that would write *)
Theorem C28_pivot_transcode : forall a b fl src space, is_cset a -> is_cset b -> unit_text a src -> 0 <= space ->
  exists d e r, decode_all a fl src = Some d /\ from_u32_unsafe_of b fl (r_out d) space = Some e /\
    pivot_transcode a b fl src space = Some r /\
    de_out r = r_out e /\ pivot_end a fl 16 src d e (de_reason r) (de_stale r) (de_dist r).
Proof.
  intros a b fl src space HA HB HU Hs. destruct (cset_decoding_len a fl src HA HU) as (l & Hl & HL & HD & Hlen).
  destruct (decode_encode_ok _ _ _ _ (cset_encoding b fl HB) (S (length src)) l space HD ltac:(lia) Hs) as (r & Er & H1 & _ & _ & H2 & H3).
  rewrite Hl in Er. destruct (decoding_full _ _ _ (zlen src) HD) as [Ed HP]; [unfold zlen; lia|apply zlen_nonneg|]. rewrite Hl in Ed.
  exists (full l), (run_steps (map (enc_step_of b fl) (r_out (full l))) space), r. split; [exact Ed|].
  split; [apply (cset_encoding b fl HB); assumption|]. split; [exact Er|]. split; [exact H1|].
  eapply (pivot_end_intro a b fl 16 src l); eauto. intros HC. destruct (H2 HC) as (T1 & T2 & T3 & _). auto.
Qed.
(* its notifications: the unsupported code points are the encoder's, in order; invalid
   sequences are the decoder's; and when everything was encoded all of them are notified *)
Theorem C28_notifications_partial : forall a b fl src space, is_cset a -> is_cset b -> unit_text a src -> 0 <= space ->
  exists d e r, decode_all a fl src = Some d /\ from_u32_unsafe_of b fl (r_out d) space = Some e /\
    pivot_transcode a b fl src space = Some r /\
    filter is_unsupported (de_notes r) = r_notes e /\
    (forall n, In n (de_notes r) -> In n (r_notes d ++ r_notes e)) /\
    (r_reason e = RCompleted -> forall n, In n (r_notes d ++ r_notes e) -> In n (de_notes r)).
Proof.
  intros a b fl src space HA HB HU Hs. destruct (cset_decoding_len a fl src HA HU) as (l & Hl & HL & HD & Hlen).
  destruct (decode_encode_ok _ _ _ _ (cset_encoding b fl HB) (S (length src)) l space HD ltac:(lia) Hs) as (r & Er & H1 & N1 & N2 & H2 & H3).
  rewrite Hl in Er. destruct (decoding_full _ _ _ (zlen src) HD) as [Ed HP]; [unfold zlen; lia|apply zlen_nonneg|]. rewrite Hl in Ed.
  exists (full l), (run_steps (map (enc_step_of b fl) (r_out (full l))) space), r. split; [exact Ed|].
  split; [apply (cset_encoding b fl HB); assumption|]. split; [exact Er|]. split; [exact N1|]. split; [exact N2|].
  intros HC. apply (H2 HC).
Qed.
(* Exactly how often.  [pieces a lax src ps]: src is cut in code units sequences, each with
   whether it is invalid in charset a. *)
Definition pieces (a : cset) (lax : bool) (src : list Z) (ps : list (list Z * bool)) : Prop :=
  match a with
  | Utf f => exists its, items (enc_of f) lax src its /\ ps = map (fun it => (src_of (enc_of f) it, is_bad it)) its
  | Sb _ cs => ps = map (fun c => ([c], match sb_decode cs c with Some 0xFFFD => true | _ => false end)) src
  end.
(* The notifications when the first [m] pieces are processed (and one more looked at): an
   invalid piece is notified once, or twice if its index is a positive multiple of 16; with
   the stop flag nothing follows the first one. *)
Fixpoint invalid_notes (stop : bool) (m i : Z) (ps : list (list Z * bool)) : list note :=
  match ps with
  | [] => []
  | (u, bad) :: more =>
      let n := if bad then [NoteInvalid (u ++ concat (map fst more)) (zlen u)] else [] in
      if bad && stop then n
      else if i <? m then n ++ (if (0 <? i) && (i mod 16 =? 0) then n else []) ++ invalid_notes stop m (i + 1) more
      else n
  end.
(* everything, or (when the encoder stops) the multiple of 16 above the number of code points encoded *)
Definition looked_at (ps : list (list Z * bool)) (d e : tr_result) : Z :=
  if reason_eqb (r_reason e) RCompleted then zlen ps
  else 16 * ((zlen (r_out d) - zlen (r_rest e)) / 16 + 1).
Lemma twice_items f stop m its : forall i,
  twice m i (item_steps f U32 stop its) = invalid_notes stop m i (map (fun it => (src_of (enc_of f) it, is_bad it)) its).
Proof.
  induction its as [|it its IH]; intros i; [reflexivity|]. cbn [item_steps map twice invalid_notes]. fold (item_steps f U32 stop its).
  rewrite note_item. cbn [item_step st_stop].
  replace (concat (map fst (map (fun it0 => (src_of (enc_of f) it0, is_bad it0)) its))) with (srcs_of (enc_of f) its).
  2:{ clear. induction its as [|x l IH]; [reflexivity|]. cbn. rewrite <- IH. reflexivity. }
  destruct it as [c|b]; cbn [is_bad andb map src_of lift_note fst snd]; [|destruct stop]; rewrite ?IH; reflexivity.
Qed.
Lemma twice_units cs i0 fl m src : nth_error all_sbcs i0 = Some cs -> units 8 src -> forall i, twice m i (map (to_step cs fl) src) =
  invalid_notes (f_stop_invalid fl) m i (map (fun c => ([c], match sb_decode cs c with Some 0xFFFD => true | _ => false end)) src).
Proof.
  intros HC HU. induction HU as [|c src Hc HF IH]; intros i; [reflexivity|]. cbn [map twice invalid_notes to_step st_stop].
  assert (E : match sb_decode cs c with Some 0xFFFD => true | _ => false end = (decoded cs c =? 0xFFFD)).
  { rewrite (decode_some cs _ (all_ok i0 cs HC) c Hc). destruct (Z.eqb_spec (decoded cs c) 0xFFFD) as [->|N]; [reflexivity|].
    destruct (decoded cs c) as [|q|q]; try reflexivity. do 16 (destruct q as [q|q|]; try reflexivity). exfalso. apply N. reflexivity. }
  rewrite E. unfold note_of. cbn [to_step st_report st_src].
  replace (concat (map fst (map (fun c0 => ([c0], match sb_decode cs c0 with Some 0xFFFD => true | _ => false end)) src))) with (srcs (map (to_step cs fl) src)).
  2:{ clear. induction src as [|x l IH]; [reflexivity|]. cbn in *. f_equal. exact IH. }
  destruct (decoded cs c =? 0xFFFD); cbn [andb]; [destruct (f_stop_invalid fl)|]; rewrite ?IH; reflexivity.
Qed.
Theorem C28_notifications_exact_partial : forall a b fl src space ps, is_cset a -> is_cset b -> unit_text a src -> 0 <= space ->
  pieces a (f_lax fl) src ps ->
  exists d e r, decode_all a fl src = Some d /\ from_u32_unsafe_of b fl (r_out d) space = Some e /\
    pivot_transcode a b fl src space = Some r /\
    filter is_unsupported (de_notes r) = r_notes e /\
    filter (fun n => negb (is_unsupported n)) (de_notes r) = invalid_notes (f_stop_invalid fl) (looked_at ps d e) 0 ps.
Proof.
  intros a b fl src space ps HA HB HU Hs HPs.
  assert (exists l, srcs l = src /\ (length l <= length src)%nat /\ zlen l = zlen ps /\ decoding (valid_cp (f_lax fl)) (to_u32_of a fl) l /\
    forall m, twice m 0 l = invalid_notes (f_stop_invalid fl) m 0 ps) as (l & Hl & HL & Hz & HD & HT).
  { destruct a as [f|i cs]; cbn [pieces] in HPs.
    - destruct HPs as (its & HI & ->). exists (item_steps f U32 (f_stop_invalid fl) its).
      destruct (utf_decoding f fl src its HU HI) as [H1 H2]. split; [exact H1|].
      split; [unfold item_steps; rewrite map_length; eapply items_length_of; exact HI|].
      split; [unfold zlen, item_steps; rewrite !map_length; reflexivity|]. split; [exact H2|]. intros m. apply twice_items.
    - subst ps. exists (map (to_step cs fl) src). destruct (sb_decoding i cs fl src HA HU) as [H1 H2]. split; [exact H1|].
      split; [rewrite map_length; lia|]. split; [unfold zlen; rewrite !map_length; reflexivity|]. split; [exact H2|].
      intros m. eapply twice_units; eassumption. }
  destruct (decode_encode_ok _ _ _ _ (cset_encoding b fl HB) (S (length src)) l space HD ltac:(lia) Hs) as (r & Er & H1 & N1 & _).
  pose proof (decode_encode_notes _ _ _ _ (cset_encoding b fl HB) (S (length src)) l space HD ltac:(lia) Hs r Er) as HN.
  rewrite Hl in Er. destruct (decoding_full _ _ _ (zlen src) HD) as [Ed HP]; [unfold zlen; lia|apply zlen_nonneg|]. rewrite Hl in Ed.
  exists (full l), (run_steps (map (enc_step_of b fl) (r_out (full l))) space), r. split; [exact Ed|].
  split; [apply (cset_encoding b fl HB); assumption|]. split; [exact Er|]. split; [exact N1|].
  change (fun n => negb (is_unsupported n)) with is_invalid. rewrite HN, HT. unfold reach, looked_at. rewrite Hz. reflexivity.
Qed.
Example C28_notifications_exact_ex : invalid_notes false 18 0 (repeat ([0x61], false) 15 ++ [([0xFE], true); ([0xFF], true); ([0x62], false)]) =
  [NoteInvalid [0xFE; 0xFF; 0x62] 1; NoteInvalid [0xFF; 0x62] 1; NoteInvalid [0xFF; 0x62] 1].
Proof. reflexivity. Qed.
(* missing in the above: that each is notified once.  An invalid sequence that follows
   exactly 16 code points is decoded, and notified, twice *)
Theorem C28_notifications_refuted : exists src r, zlen src = 17 /\
  pivot_transcode (Utf U8) (Sb 0 ascii) (mk_flags false false false) src 100 = Some r /\
  filter (fun n => negb (is_unsupported n)) (de_notes r) = [NoteInvalid [0xFF] 1; NoteInvalid [0xFF] 1].
Proof.
  exists (repeat 0x61 16 ++ [0xFF]). eexists. split; [reflexivity|]. split; [vm_compute; reflexivity|]. reflexivity.
Qed.
(* decode_encode_size gives the length of what decode_encode would write *)
Theorem C28_pivot_size : forall a b fl src limit, is_cset a -> is_cset b -> unit_text a src -> 0 <= limit ->
  exists r z, pivot_transcode a b fl src limit = Some r /\ pivot_size_of a b fl src limit = Some z /\
    ds_size z = zlen (de_out r) /\ ds_reason z = de_reason r /\
    exists d e, decode_all a fl src = Some d /\ from_u32_unsafe_of b fl (r_out d) limit = Some e /\
      pivot_end a fl 16 src d e (ds_reason z) (ds_stale z) (ds_dist z).
Proof.
  intros a b fl src limit HA HB HU Hs. destruct (cset_decoding_len a fl src HA HU) as (l & Hl & HL & HD & Hlen).
  destruct (decode_encode_ok _ _ _ _ (cset_encoding b fl HB) (S (length src)) l limit HD ltac:(lia) Hs) as (r & Er & H1 & _ & _ & H2 & H3).
  destruct (decode_encode_size_ok _ _ _ _ _ pivot_size (cset_encoding b fl HB) (cset_encoding_size b fl HB) ltac:(unfold pivot_size; lia)
     (S (length src)) l limit 0 HD ltac:(lia) Hs) as (z & Ez & Z1 & Z2 & Z3).
  rewrite Hl in Er, Ez. exists r, (mk_des (0 + ds_size z) (ds_stale z) (ds_dist z) (ds_reason z)). cbn [ds_size ds_stale ds_dist ds_reason].
  split; [exact Er|]. split; [exact Ez|]. split; [rewrite H1; lia|].
  set (e := run_steps (map (enc_step_of b fl) (r_out (full l))) limit) in *. cbv zeta in *.
  split.
  { destruct (reason_eqb (r_reason e) RCompleted) eqn:EC.
    - apply reason_eqb_spec in EC. destruct (H2 EC) as [-> _]. destruct (Z2 EC) as [-> _]. reflexivity.
    - assert (r_reason e <> RCompleted) as NC by (intros X; apply reason_eqb_spec in X; congruence).
      destruct (H3 NC) as [-> _]. destruct (Z3 NC) as [-> _]. reflexivity. }
  destruct (decoding_full _ _ _ (zlen src) HD) as [Ed HP]; [unfold zlen; lia|apply zlen_nonneg|]. rewrite Hl in Ed.
  exists (full l), e. split; [exact Ed|]. split; [apply (cset_encoding b fl HB); assumption|].
  eapply (pivot_end_intro a b fl 16 src l); eauto.
Qed.
(* the unsafe variants, on well-formed sources (the size variant has a pivot of 32) *)
Theorem C28_pivot_unsafe : forall a b fl src space, is_cset a -> is_cset b -> unit_text a src -> 0 <= space ->
  well_formed_in a (f_lax fl) src ->
  exists d e r z, decode_all a fl src = Some d /\ from_u32_unsafe_of b fl (r_out d) space = Some e /\
    pivot_unsafe a b fl src space = Some r /\ pivot_unsafe_size a b fl src space = Some z /\
    de_out r = r_out e /\ pivot_end a fl 16 src d e (de_reason r) (de_stale r) (de_dist r) /\
    ds_size z = zlen (r_out e) /\ pivot_end a fl 32 src d e (ds_reason z) (ds_stale z) (ds_dist z).
Proof.
  intros a b fl src limit HA HB HU Hs HW. destruct (cset_decoding_unsafe a fl src HA HU HW) as (l & Hl & HL & HD & HDu & Hlen).
  destruct (decode_encode_ok _ _ _ _ (cset_encoding b fl HB) (S (length src)) l limit HDu ltac:(lia) Hs) as (r & Er & H1 & _ & _ & H2 & H3).
  destruct (decode_encode_size_ok _ _ _ _ _ unsafe_size_pivot (cset_encoding b fl HB) (cset_encoding_size b fl HB) ltac:(unfold unsafe_size_pivot; lia)
     (S (length src)) l limit 0 HDu ltac:(lia) Hs) as (z & Ez & Z1 & Z2 & Z3).
  rewrite Hl in Er, Ez. destruct (decoding_full _ _ _ (zlen src) HD) as [Ed HP]; [unfold zlen; lia|apply zlen_nonneg|]. rewrite Hl in Ed.
  exists (full l), (run_steps (map (enc_step_of b fl) (r_out (full l))) limit), r, (mk_des (0 + ds_size z) (ds_stale z) (ds_dist z) (ds_reason z)).
  cbn [ds_size ds_stale ds_dist ds_reason].
  split; [exact Ed|]. split; [apply (cset_encoding b fl HB); assumption|]. split; [exact Er|]. split; [exact Ez|]. split; [exact H1|].
  split; [eapply (pivot_end_intro a b fl 16 src l); eauto; intros HC; destruct (H2 HC) as (T1 & T2 & T3 & _); auto|].
  split; [rewrite Z1; lia|]. eapply (pivot_end_intro a b fl 32 src l); eauto.
Qed.

(* ---- what is written, in terms of code points only ---- *)
(* [src], in charset a, stands for the code points cps: U+FFFD for each ill-formed part *)
Definition cp_of (it : item) : Z := match it with Good c => c | Bad _ => 0xFFFD end.
Definition text_in (a : cset) (lax : bool) (src cps : list Z) : Prop :=
  match a with
  | Utf f => exists its, items (enc_of f) lax src its /\ cps = map cp_of its
  | Sb _ cs => map (sb_decode cs) src = map Some cps
  end.
(* the encoding of one code point in charset b: '?' when it has none *)
Definition encoded_in (b : cset) (cp : Z) (out : list Z) : Prop :=
  match b with
  | Utf g => out = enc_of g cp
  | Sb _ cs => exists e, sb_encode cs cp = Some e /\ out = [if e <? 0x100 then e else 0x3F]
  end.
Theorem C28_text_exists : forall a lax src, is_cset a -> unit_text a src -> exists cps, text_in a lax src cps.
Proof.
  intros [f|i cs] lax src HA HU; cbn [text_in].
  - destruct (items_exist_of f lax src HU) as [its HI]. eauto.
  - exists (map (decoded cs) src). induction HU as [|c src Hc HF IH]; [reflexivity|]. cbn [map].
    rewrite (decode_some cs _ (all_ok i cs HA) c Hc), IH. reflexivity.
Qed.
Definition no_stop (fl : flags) : Prop := f_stop_invalid fl = false /\ f_stop_unsupported fl = false.

Lemma items32_cps lax src its : units 32 src -> items enc32 lax src its -> Forall2 (fun c cp => valid_cp lax c /\ cp = c \/ ~ valid_cp lax c /\ cp = 0xFFFD) src (map cp_of its).
Proof.
  intros HU HI. induction HI as [|cp rest its0 HV HL HI0 IH|bad rest its0 HUn HMx HI0 IH].
  - constructor.
  - cbn [enc32 app map cp_of]. constructor; [left; auto|]. apply IH. apply units_cons in HU. apply HU.
  - assert (length bad = 1%nat) as HB.
    { destruct HMx as (_ & [N|[N (cp & _ & [w Hw])]] & _); [exact N|]. cbn in Hw.
      destruct bad as [|x [|y b]]; [congruence|reflexivity|discriminate]. }
    destruct bad as [|x [|y b]]; try discriminate. cbn [app map cp_of]. constructor.
    + right. split; [|reflexivity]. intros HV. apply (HUn x HV). exists rest. reflexivity.
    + apply IH. apply units_cons in HU. apply HU.
Qed.
Lemma enc_step_in b fl cp out : is_cset b -> 0 <= cp -> encoded_in b cp out -> st_out (enc_step_of b fl cp) = out.
Proof.
  destruct b as [g|j cs]; cbn [encoded_in enc_step_of]; intros HB Hc HE; [symmetry; exact HE|].
  destruct HE as (e & E & ->). cbn [from_unsafe_step st_out]. unfold supports, encoded. rewrite E. destruct (e <? 0x100); reflexivity.
Qed.
Lemma outs_encoded b fl cps out : is_cset b -> Forall (fun c => 0 <= c) cps -> Forall2 (encoded_in b) cps out -> outs (map (enc_step_of b fl) cps) = concat out.
Proof.
  intros HB HP H. induction H as [|cp o cps out HE HF IH]; [reflexivity|]. inversion HP; subst.
  cbn [map concat]. rewrite outs_cons. rewrite (enc_step_in b fl cp o) by assumption. f_equal. apply IH. assumption.
Qed.
Lemma enc_step_nostop b fl cps : no_stop fl -> Forall nostop (map (enc_step_of b fl) cps).
Proof.
  intros [_ H]. apply Forall_map. apply Forall_forall. intros c _. destruct b; [reflexivity|]. unfold nostop. cbn [enc_step_of from_unsafe_step st_stop].
  rewrite H, andb_false_r. reflexivity.
Qed.
Lemma run_nostop l sp : Forall nostop l -> zlen (outs l) <= sp ->
  r_rest (run_steps l sp) = [] /\ r_out (run_steps l sp) = outs l /\ r_reason (run_steps l sp) = RCompleted.
Proof.
  intros HN. revert sp. induction HN as [|s l Hs HF IH]; intros sp Hl; [auto|]. cbn [run_steps]. unfold nostop in Hs. rewrite Hs.
  rewrite outs_cons, zlen_app in *. pose proof (zlen_nonneg (outs l)). replace (zlen (st_out s) <=? sp) with true by lia.
  cbv zeta. cbn [r_rest r_out r_reason]. destruct (IH (sp - zlen (st_out s)) ltac:(lia)) as (-> & -> & ->). auto.
Qed.
(* the steps of decoding, when nothing stops *)
Lemma decoding_text a fl src cps : is_cset a -> unit_text a src -> no_stop fl -> text_in a (f_lax fl) src cps ->
  exists l, srcs l = src /\ (length l <= length src)%nat /\ decoding (valid_cp (f_lax fl)) (to_u32_of a fl) l /\ Forall nostop l /\ outs l = cps.
Proof.
  destruct a as [f|i cs]; intros HC HU [HS1 HS2] HT; cbn [text_in] in HT.
  - destruct HT as (its & HI & ->). exists (item_steps f U32 (f_stop_invalid fl) its).
    destruct (utf_decoding f fl src its HU HI) as [H1 H2]. split; [exact H1|].
    split; [unfold item_steps; rewrite map_length; eapply items_length_of; exact HI|]. split; [exact H2|]. split.
    + apply Forall_map. apply Forall_forall. intros it _. unfold nostop. cbn [item_step st_stop]. rewrite HS1, andb_false_r. reflexivity.
    + rewrite outs_items. clear. induction its as [|[c|b] its IH]; [reflexivity| |]; cbn [map cp_of]; rewrite <- IH; reflexivity.
  - exists (map (to_step cs fl) src). destruct (sb_decoding i cs fl src HC HU) as [H1 H2]. split; [exact H1|].
    split; [rewrite map_length; lia|]. split; [exact H2|]. split.
    + apply Forall_map. apply Forall_forall. intros it _. unfold nostop. cbn [to_step st_stop]. rewrite HS1, andb_false_r. reflexivity.
    + clear - HT. revert cps HT. induction src as [|c src IH]; intros [|cp cps] HT; try discriminate; [reflexivity|]. cbn [map] in *.
      injection HT as E HT. rewrite outs_cons, (IH cps HT). cbn [to_step st_out]. unfold decoded. rewrite E. reflexivity.
Qed.
(* the steps of the direct transcoders, when nothing stops *)
Lemma direct_text a b func fl src cps out : is_cset a -> is_cset b -> direct a b = Some func -> unit_text a src -> no_stop fl ->
  text_in a (f_lax fl) src cps -> Forall2 (encoded_in b) cps out ->
  exists l, srcs l = src /\ (length l <= length src)%nat /\ steps_of (func fl) l /\ Forall nostop l /\ outs l = concat out.
Proof.
  intros HA HB HD HU [HS1 HS2] HT HE.
  destruct a as [f|i cs], b as [g|j cs']; cbn [text_in] in HT.
  - assert (func = fun fl src sp => option_map lift (transcode_of f g (f_lax fl) (f_stop_invalid fl) src sp)) as -> by (destruct f; injection HD as <-; reflexivity).
    destruct HT as (its & HI & ->). exists (item_steps f g (f_stop_invalid fl) its).
    split; [rewrite srcs_items; symmetry; apply (items_src _ _ _ _ HI)|]. split; [unfold item_steps; rewrite map_length; eapply items_length_of; exact HI|].
    split; [split|split].
    + intros p q sp E Hs. unfold item_steps in E. apply map_eq_app in E as (p' & s & -> & <- & <-).
      fold (item_steps f g (f_stop_invalid fl) s). rewrite srcs_items.
      apply transcode_run; [eapply units_srcs; eassumption|exact Hs|eapply items_suffix; exact HI].
    + apply Forall_map. apply Forall_forall. intros it _. split.
      * unfold real_stop. cbn [item_step st_stop]. destruct (is_bad it && f_stop_invalid fl); exact I.
      * cbn [item_step st_out]. destruct it; cbn [out_of]; [pose proof (enc_of_len g cp)|pose proof (enc_of_len g 0xFFFD)]; lia.
    + apply Forall_map. apply Forall_forall. intros it _. unfold nostop. cbn [item_step st_stop]. rewrite HS1, andb_false_r. reflexivity.
    + rewrite outs_items. clear - HE. remember (map cp_of its) as cps eqn:E. revert its E. induction HE as [|cp o cps out H HF IH]; intros [|it its] E; try discriminate; [reflexivity|].
      injection E as -> E. cbn [concat]. rewrite <- (IH its E). cbn [encoded_in] in H. rewrite H. destruct it; reflexivity.
  - destruct f; cbn [direct] in HD; try discriminate. injection HD as <-. exists (map (from_step cs' fl) src).
    split; [apply srcs_units; reflexivity|]. split; [rewrite map_length; lia|]. split; [|split].
    + apply steps_of_map.
      * intros c. split; [reflexivity|]. split; [|cbn; lia]. unfold real_stop. cbn [from_step st_stop].
        destruct (_ && f_stop_unsupported fl); [exact I|]. destruct (_ && f_stop_invalid fl); exact I.
      * intros s sp [p ->] Hs. apply Forall_app in HU. apply (from_u32_steps cs' _ (all_ok j cs' HB)); [apply HU|exact Hs].
    + apply Forall_map. apply Forall_forall. intros c _. unfold nostop. cbn [from_step st_stop]. rewrite HS1, HS2, !andb_false_r. reflexivity.
    + destruct HT as (its & HI & ->). pose proof (items32_cps _ _ _ HU HI) as HC.
      clear HI. revert out HE. induction HC as [|c cp src cps Hc HF IH]; intros out HE; inversion HE; subst; [reflexivity|].
      apply units_cons in HU as [Hu HU]. cbn [map concat]. rewrite outs_cons, (IH HU l') by assumption. f_equal.
      match goal with H : encoded_in _ _ _ |- _ => destruct H as (e & Ee & ->) end. cbn [from_step st_out].
      destruct Hc as [[Hc ->]|[Hc ->]].
      * unfold supports, encoded. rewrite Ee. destruct (e <? 0x100); reflexivity.
      * rewrite (so_fffd _ _ (all_ok j cs' HB)) in Ee. injection Ee as <-. cbn [Z.ltb Z.compare Pos.compare Pos.compare_cont].
        destruct (supports cs' c) eqn:ES; [|reflexivity]. exfalso.
        destruct (supports_small cs' _ (all_ok j cs' HB) c ltac:(lia) ES) as [X|[X|X]].
        -- apply Hc. split; [lia|]. right. unfold is_surr. lia.
        -- apply Hc. rewrite X. apply valid_FFFD.
        -- pose proof (exceptions_small j) as XS. rewrite Forall_forall in XS. specialize (XS c X). apply Hc. split; [lia|]. right. unfold is_surr. lia.
  - destruct g; cbn [direct] in HD; try discriminate. injection HD as <-. exists (map (to_step cs fl) src).
    split; [apply srcs_units; reflexivity|]. split; [rewrite map_length; lia|]. split; [|split].
    + apply steps_of_map.
      * intros c. split; [reflexivity|]. split; [|cbn; lia]. unfold real_stop. cbn [to_step st_stop].
        destruct (_ && f_stop_invalid fl); exact I.
      * intros s sp [p ->] Hs. apply Forall_app in HU. apply (to_u32_steps cs _ (all_ok i cs HA)); [apply HU|exact Hs].
    + apply Forall_map. apply Forall_forall. intros c _. unfold nostop. cbn [to_step st_stop]. rewrite HS1, !andb_false_r. reflexivity.
    + clear - HT HE. revert out HE src HT. induction cps as [|cp cps IH]; intros out HE src HT; inversion HE; subst; destruct src as [|c src]; try discriminate; [reflexivity|].
      cbn [map] in HT. injection HT as E HT. cbn [map concat]. rewrite outs_cons, (IH l' ltac:(assumption) src HT). f_equal.
      match goal with H : encoded_in _ _ _ |- _ => cbn [encoded_in] in H; rewrite H end. cbn [to_step st_out]. unfold decoded. rewrite E. reflexivity.
  - cbn [direct] in HD. destruct (Nat.eqb_spec i j) as [Eij|]; [|discriminate]. injection HD as <-. exists (map (sanitize_step cs fl) src).
    assert (cs' = cs) as -> by (subst j; cbn [is_cset] in HA, HB; congruence).
    split; [apply srcs_units; reflexivity|]. split; [rewrite map_length; lia|]. split; [|split].
    + apply steps_of_map.
      * intros c. split; [reflexivity|]. split; [|cbn; lia]. unfold real_stop. cbn [sanitize_step st_stop].
        destruct (_ && f_stop_invalid fl); exact I.
      * intros s sp [p ->] Hs. apply Forall_app in HU. apply (sanitize_steps cs _ (all_ok i cs HA)); [apply HU|exact Hs].
    + apply Forall_map. apply Forall_forall. intros c _. unfold nostop. cbn [sanitize_step st_stop]. rewrite HS1, !andb_false_r. reflexivity.
    + pose proof (all_ok i cs HA) as OK. change (Forall (fun c => 0 <= c < 256) src) in HU. clear HB.
      revert out HE src HU HT. induction cps as [|cp cps IH]; intros out HE src HU HT; inversion HE; subst; destruct src as [|c src]; try discriminate; [reflexivity|].
      cbn [map] in HT. injection HT as E HT. inversion HU; subst. cbn [map concat]. rewrite outs_cons, (IH l' ltac:(assumption) src ltac:(assumption) HT). f_equal.
      match goal with H : encoded_in _ _ _ |- _ => destruct H as (e & Ee & ->) end. cbn [sanitize_step st_out].
      assert (decoded cs c = cp) as Dc by (unfold decoded; rewrite E; reflexivity). rewrite Dc.
      destruct (Z.eqb_spec cp 0xFFFD) as [->|N].
      * rewrite (so_fffd _ _ OK) in Ee. injection Ee as <-. reflexivity.
      * pose proof (encoded_decoded cs _ OK c ltac:(assumption) ltac:(congruence)) as X. unfold encoded in X. rewrite Dc, Ee in X. subst e.
        replace (c <? 0x100) with true by lia. reflexivity.
Qed.

(* With room enough and no stop flag, strf::transcode from a to b writes, whatever the way
   (direct transcoder or pivot), the encodings of the code points of the source. *)
Theorem C28_transcode_text : forall a b fl src cps out space, is_cset a -> is_cset b -> unit_text a src -> no_stop fl ->
  text_in a (f_lax fl) src cps -> Forall2 (encoded_in b) cps out -> zlen (concat out) <= space ->
  exists r, transcode_between a b fl src space = Some r /\
    de_out r = concat out /\ de_reason r = RCompleted /\ de_stale r = [] /\ de_dist r = 0.
Proof.
  intros a b fl src cps out space HA HB HU HN HT HE Hsp. pose proof (zlen_nonneg (concat out)). unfold transcode_between.
  destruct (direct a b) as [func|] eqn:ED.
  - destruct (direct_text a b func fl src cps out HA HB ED HU HN HT HE) as (l & Hl & HL & HS & HNs & HO).
    pose proof (proj1 HS [] l space eq_refl ltac:(lia)) as E. rewrite Hl in E. rewrite E. cbn [obind].
    destruct (run_nostop l space HNs ltac:(rewrite HO; exact Hsp)) as (E1 & E2 & E3). eexists. split; [reflexivity|].
    cbn [de_out de_reason de_stale de_dist]. rewrite E1, E2, E3. auto.
  - destruct (decoding_text a fl src cps HA HU HN HT) as (l & Hl & HL & HD & HNs & HO).
    destruct (decode_encode_ok _ _ _ _ (cset_encoding b fl HB) (S (length src)) l space HD ltac:(lia) ltac:(lia)) as (r & Er & H1 & _ & _ & H2 & H3).
    rewrite Hl in Er. exists r. split; [exact Er|].
    destruct (run_nostop l (zlen (outs l)) HNs ltac:(lia)) as (D1 & D2 & D3). change (run_steps l (zlen (outs l))) with (full l) in D1, D2, D3.
    rewrite D2, HO in *.
    assert (HP : Forall (fun c => 0 <= c) cps).
    { rewrite <- HO. pose proof (decoding_outs _ _ (proj2 HD)) as [X _]. eapply Forall_impl; [|exact X]. intros c [Hc _]. lia. }
    pose proof (outs_encoded b fl cps out HB HP HE) as EO.
    destruct (run_nostop (map (enc_step_of b fl) cps) space (enc_step_nostop b fl cps HN) ltac:(rewrite EO; exact Hsp)) as (E1 & E2 & E3).
    rewrite E2, EO in H1. destruct (H2 E3) as (T1 & T2 & T3 & _). rewrite T1, T2, T3, D1, D3. auto.
Qed.
Lemma encoded_all b cps : is_cset b -> Forall (fun c => 0 <= c) cps -> exists out, Forall2 (encoded_in b) cps out.
Proof.
  intros HB H. induction H as [|c cps Hc HF [out IH]]; [exists []; constructor|].
  assert (exists o, encoded_in b c o) as [o Ho].
  { destruct b as [g|j cs]; cbn [encoded_in]; [eauto|]. pose proof (encode_some cs _ (all_ok j cs HB) c Hc) as E. eauto. }
  exists (o :: out). constructor; assumption.
Qed.
Lemma units_suffix a x y : unit_text a (x ++ y) -> unit_text a y.
Proof. destruct a; unfold unit_text, units; rewrite Forall_app; intros [_ H]; exact H. Qed.
Lemma unit_text_steps a src x y : srcs (x ++ y) = src -> unit_text a src -> unit_text a (srcs y).
Proof. intros <-. rewrite srcs_app. apply units_suffix. Qed.
(* the destination failed: what [text] lacks is the encoding of what is left of the source (from
   ds_stale, without its ds_dist first code points), and the rest of it was counted *)
Definition interrupted (a b : cset) (lax : bool) (text : list Z) (r : des_result) : Prop :=
  ds_reason r = RInsufficient /\
  exists written skipped todo out, text = written ++ concat out /\ ds_size r = zlen written /\
    text_in a lax (ds_stale r) (skipped ++ todo) /\ ds_dist r = zlen skipped /\ Forall2 (encoded_in b) todo out.
(* The same into any destination: a destination that stays good gets exactly this text *)
Theorem C28_transcode_into : forall S (ops : dest_ops S) R pre, dest_laws ops R pre ->
  forall a b fl src cps out s t, is_cset a -> is_cset b -> unit_text a src -> no_stop fl ->
  text_in a (f_lax fl) src cps -> Forall2 (encoded_in b) cps out -> R s t ->
  exists s' r, transcode_into ops a b fl s src = Some (s', r) /\ R s' (t ++ concat out) /\
    (d_good ops s' = false /\ interrupted a b (f_lax fl) (concat out) r \/
     r = mk_des (zlen (concat out)) [] 0 RCompleted).
Proof.
  intros S ops R pre L a b fl src cps out s t HA HB HU HN HT HE HR. unfold transcode_into.
  destruct (direct a b) as [func|] eqn:ED.
  - destruct (direct_text a b func fl src cps out HA HB ED HU HN HT HE) as (l & Hl & HL & HS & HNs & HO).
    destruct (transcode_to_dest_ok ops R pre L (func fl) (Datatypes.S (Datatypes.S (length src))) l s t HS HR ltac:(lia)) as (s' & z & E & H1 & H2).
    rewrite Hl in E. rewrite E. cbn [obind fst snd]. eexists _, _. split; [reflexivity|].
    destruct (run_nostop l (zlen (outs l)) HNs ltac:(lia)) as (D1 & D2 & D3). change (run_steps l (zlen (outs l))) with (full l) in D1, D2, D3.
    rewrite D1, D2, D3, HO in *. split; [exact H1|]. cbn [ds_reason].
    destruct H2 as [(H2 & HG & l1 & l2 & Q1 & Q2 & Q3 & Q4)|(E1 & E2 & E3)]; [left|right; rewrite E1, E2, E3; reflexivity].
    split; [exact HG|]. split; [exact H2|]. cbn [ds_size ds_stale ds_dist].
    assert (HU2 : unit_text a (z_rest z)) by (rewrite Q3; eapply unit_text_steps; [rewrite <- Q1; exact Hl|exact HU]).
    destruct (C28_text_exists a (f_lax fl) (z_rest z) HA HU2) as [cps2 HT2].
    assert (HP : Forall (fun c => 0 <= c) cps2).
    { destruct (decoding_text a fl _ cps2 HA HU2 HN HT2) as (l3 & _ & _ & HD3 & _ & <-).
      pose proof (decoding_outs _ _ (proj2 HD3)) as [X _]. eapply Forall_impl; [|exact X]. intros c [Hc _]. lia. }
    destruct (encoded_all b cps2 HB HP) as [out2 HE2].
    destruct (direct_text a b func fl _ cps2 out2 HA HB ED HU2 HN HT2 HE2) as (l3 & Hl3 & _ & HS3 & HN3 & HO3).
    exists (outs l1), [], cps2, out2. split; [|rewrite Q4; auto]. rewrite <- HO, Q1, outs_app. f_equal. rewrite <- HO3.
    assert (HN2 : Forall nostop l2) by (rewrite Q1 in HNs; apply Forall_app in HNs; apply HNs).
    pose proof (zlen_nonneg (outs l2)) as G2. pose proof (zlen_nonneg (outs l3)) as G3.
    pose proof (proj1 HS3 [] l3 (zlen (outs l2) + zlen (outs l3)) eq_refl ltac:(lia)) as X3.
    pose proof (proj1 HS l1 l2 (zlen (outs l2) + zlen (outs l3)) Q1 ltac:(lia)) as X2.
    rewrite Hl3, Q3 in X3. rewrite X3 in X2.
    assert (Y : r_out (run_steps l3 (zlen (outs l2) + zlen (outs l3))) = r_out (run_steps l2 (zlen (outs l2) + zlen (outs l3)))) by congruence.
    destruct (run_nostop l2 (zlen (outs l2) + zlen (outs l3)) HN2 ltac:(lia)) as (_ & Y2 & _).
    destruct (run_nostop l3 (zlen (outs l2) + zlen (outs l3)) HN3 ltac:(lia)) as (_ & Y3 & _). congruence.
  - destruct (decoding_text a fl src cps HA HU HN HT) as (l & Hl & HL & HD & HNs & HO).
    destruct (decode_encode_dest_ok ops R pre L _ _ _ _ (Datatypes.S (length src)) l s t (cset_encoding b fl HB) (enc_step_len b fl) HD HR ltac:(lia))
      as (s' & r & E & H1 & H2).
    rewrite Hl in E. exists s', r. split; [exact E|].
    destruct (run_nostop l (zlen (outs l)) HNs ltac:(lia)) as (D1 & D2 & D3). change (run_steps l (zlen (outs l))) with (full l) in D1, D2, D3.
    assert (HP : Forall (fun c => 0 <= c) cps).
    { rewrite <- HO. pose proof (decoding_outs _ _ (proj2 HD)) as [X _]. eapply Forall_impl; [|exact X]. intros c [Hc _]. lia. }
    rewrite D1, D2, D3, HO in *. pose proof (outs_encoded b fl cps out HB HP HE) as EO.
    set (m := map (enc_step_of b fl) cps) in *.
    destruct (run_nostop m (zlen (outs m)) (enc_step_nostop b fl cps HN) ltac:(lia)) as (E1 & E2 & E3).
    change (run_steps m (zlen (outs m))) with (full m) in E1, E2, E3. rewrite E2, EO in *. split; [exact H1|].
    destruct H2 as [(H2 & HG & pr & suf & c1 & c2 & Q1 & Q2 & Q3 & Q4 & _ & Q6 & Q7)|(T0 & T1 & _)]; [left|right].
    + split; [exact HG|]. split; [exact H2|].
      assert (HU2 : unit_text a (ds_stale r)) by (rewrite Q3; eapply unit_text_steps; [rewrite <- Q1; exact Hl|exact HU]).
      destruct (C28_text_exists a (f_lax fl) (ds_stale r) HA HU2) as [cps2 HT2].
      assert (HNsuf : Forall nostop suf) by (rewrite Q1 in HNs; apply Forall_app in HNs; apply HNs).
      destruct (run_nostop suf (zlen (outs suf)) HNsuf ltac:(lia)) as (_ & S2 & _). change (run_steps suf (zlen (outs suf))) with (full suf) in S2.
      rewrite S2 in Q4.
      assert (Ecps : cps2 = c1 ++ c2).
      { rewrite <- Q4. destruct (decoding_text a fl _ cps2 HA HU2 HN HT2) as (l3 & Hl3 & _ & HD3 & HN3 & HO3).
        rewrite Q1 in HD. apply decoding_suffix in HD.
        destruct (run_nostop l3 (zlen (outs l3)) HN3 ltac:(lia)) as (_ & S3 & _). change (run_steps l3 (zlen (outs l3))) with (full l3) in S3.
        pose proof (zlen_nonneg (ds_stale r)) as GS. pose proof (decoding_full _ _ _ (zlen (outs suf) + zlen (outs l3)) HD) as W2. pose proof (decoding_full _ _ _ (zlen (outs suf) + zlen (outs l3)) HD3) as W3.
        assert (K : forall P D x, decoding P D x -> Forall nostop x -> zlen x = zlen (outs x)).
        { intros P0 D0 x [_ X] _. apply decoding_outs in X as [_ X]. congruence. }
        pose proof (K _ _ _ HD HNsuf) as K2. pose proof (K _ _ _ HD3 HN3) as K3.
        pose proof (zlen_nonneg (outs suf)) as G2. pose proof (zlen_nonneg (outs l3)) as G3.
        destruct W2 as [W2 _]; [unfold zlen in *; lia|lia|]. destruct W3 as [W3 _]; [unfold zlen in *; lia|lia|].
        rewrite Hl3, Q3 in W3. rewrite W3 in W2. assert (r_out (full l3) = r_out (full suf)) by congruence. congruence. }
      subst cps2. pose proof Q4 as Q8.
      assert (Eall : cps = (outs pr ++ c1) ++ c2) by (rewrite <- HO, Q1, outs_app, Q4, app_assoc; reflexivity).
      rewrite Eall in HE. apply Forall2_app_inv_l in HE as (o1 & o2 & HE1 & HE2 & Eo).
      exists (concat o1), c1, c2, o2. split; [rewrite Eo, concat_app; reflexivity|]. split; [|auto].
      rewrite Q7. rewrite (outs_encoded b fl _ o1 HB); [lia| |exact HE1]. rewrite Eall in HP. apply Forall_app in HP. apply HP.
    + destruct (T1 E3) as (U1 & U2 & U3).
      destruct r as [rs rt rd rr]. cbn [ds_size ds_reason ds_stale ds_dist] in *. subst. reflexivity.
Qed.
(* into a destination that already failed: nothing is done *)
Theorem C28_into_failed : forall S (ops : dest_ops S) a b fl s src, d_good ops s = false ->
  transcode_into ops a b fl s src = Some (s, mk_des 0 src 0 RInsufficient).
Proof.
  intros S ops a b fl s src H. unfold transcode_into, transcode_to_dest, decode_encode_dest. rewrite H. destruct (direct a b); reflexivity.
Qed.
(* C28 with a stop flag: into a destination, the pivot version ends as the array version
   with unlimited room *)
Theorem C28_pivot_into : forall S (ops : dest_ops S) R pre, dest_laws ops R pre ->
  forall a b fl src s t big, is_cset a -> is_cset b -> unit_text a src -> R s t -> direct a b = None ->
  exists d, decode_all a fl src = Some d /\ (4 * zlen (r_out d) <= big -> exists e s' r,
    from_u32_unsafe_of b fl (r_out d) big = Some e /\
    transcode_into ops a b fl s src = Some (s', r) /\ R s' (t ++ r_out e) /\
    (ds_reason r = RInsufficient /\ d_good ops s' = false \/
     ds_size r = zlen (r_out e) /\ pivot_end a fl 16 src d e (ds_reason r) (ds_stale r) (ds_dist r))).
Proof.
  intros S ops R pre L a b fl src s t big HA HB HU HR ED. destruct (cset_decoding_len a fl src HA HU) as (l & Hl & HL & HD & Hlen).
  destruct (decoding_full _ _ _ (zlen src) HD) as [Ed HP]; [unfold zlen; lia|apply zlen_nonneg|]. rewrite Hl in Ed.
  exists (full l). split; [exact Ed|]. intros Hbig. pose proof (zlen_nonneg (r_out (full l))).
  destruct (decode_encode_dest_ok ops R pre L _ _ _ _ (Datatypes.S (length src)) l s t (cset_encoding b fl HB) (enc_step_len b fl) HD HR ltac:(lia))
      as (s' & r & E & H1 & H2).
  rewrite Hl in E. set (m := map (enc_step_of b fl) (r_out (full l))) in *.
  assert (Hm : zlen (outs m) <= 4 * zlen (r_out (full l))).
  { unfold m. clear. induction (r_out (full l)) as [|c q IH]; [cbn; lia|]. cbn [map]. rewrite outs_cons, zlen_app, zlen_cons.
    assert (zlen (st_out (enc_step_of b fl c)) <= 4) by (destruct b; [apply enc_of_len|cbn; lia]). lia. }
  assert (Eb : run_steps m big = full m) by (apply full_big; [apply (encoding_stop _ _ _ _ (cset_encoding b fl HB))|lia]).
  exists (full m), s', r. split; [rewrite <- Eb; apply (cset_encoding b fl HB); [exact HP|lia]|].
  unfold transcode_into. rewrite ED. split; [exact E|]. split; [exact H1|].
  destruct H2 as [(H2 & HG & _)|(T0 & T1 & T2)]; [left; auto|right]. split; [exact T0|].
  rewrite <- Eb in T1, T2 |- *. eapply (pivot_end_intro a b fl 16 src l big); eauto. lia.
Qed.

Example C28_ex :
  is_cset (Utf U8) /\ is_cset (Sb 5 iso_8859_5) /\ direct (Utf U8) (Sb 5 iso_8859_5) = None /\
  transcode_between (Utf U8) (Sb 5 iso_8859_5) (mk_flags false false false)
    (concat (repeat [0xD0; 0x96; 0x61] 10)) 20 = Some (mk_de [] (concat (repeat [0xB6; 0x61] 10)) 0 RCompleted []).
Proof. split; [exact I|]. split; [reflexivity|]. split; [reflexivity|]. vm_compute. reflexivity. Qed.
(* stopping at the 18th code point, unsupported: one has to skip 1 code point from the stale pointer *)
Example C28_ex_stop :
  pivot_transcode (Utf U8) (Sb 0 ascii) (mk_flags false true true) (repeat 0x61 17 ++ [0xC3; 0xA9; 0x62]) 100 =
  Some (mk_de [0x61; 0xC3; 0xA9; 0x62] (repeat 0x61 17) 1 RUnsupported [NoteUnsupported 0xE9]).
Proof. vm_compute. reflexivity. Qed.
Print Assumptions C28_pivot_transcode.
Print Assumptions C28_notifications_partial.
Print Assumptions C28_notifications_exact_partial.
Print Assumptions C28_notifications_refuted.
Print Assumptions C28_pivot_size.
Print Assumptions C28_pivot_unsafe.
Print Assumptions C28_text_exists.
Print Assumptions C28_transcode_text.
Print Assumptions C28_transcode_into.
Print Assumptions C28_into_failed.
Print Assumptions C28_pivot_into.
