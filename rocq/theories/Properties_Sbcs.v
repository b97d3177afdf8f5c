(* C30-C33: the single-byte charsets. *)
From Verif Require Import Base DestModel TransSpec UtfSpec SbcsTables SbcsSpec SbcsModel SbcsProofs SbcsSignedModel SbcsSignedProofs SbcsExact CharsetModel.

(* A charset and its published table have the same index in all_sbcs / all_std. *)

(* ---------- C30 ---------- *)
(* Every byte decodes to the code point the published table gives; a byte the table leaves
   undefined decodes to U+FFFD or, in the windows charsets, to the C1 control with the same
   number (0xCA of windows-1255 to U+05BA), as in Microsoft's best-fit tables. *)
Definition decode_check (i : nat) (cs : sbcs) (t : list Z) (b : Z) : bool :=
  match std_decode t b with
  | Some c => opt_is (sb_decode cs b) c
  | None => opt_is (sb_decode cs b) 0xFFFD ||
            (16 <=? Z.of_nat i) && (0x80 <=? b) && (b <=? 0x9F) && opt_is (sb_decode cs b) b ||
            (Z.of_nat i =? 21) && (b =? 0xCA) && opt_is (sb_decode cs b) 0x5BA
  end.
Fixpoint decode_checks (i : nat) (l : list sbcs) (ts : list (list Z)) : bool :=
  match l, ts with
  | cs :: l, t :: ts => forall_from 256 0 (decode_check i cs t) && decode_checks (S i) l ts
  | [], [] => true
  | _, _ => false
  end.
Lemma decode_checked : decode_checks 0 all_sbcs all_std = true.
Proof. vm_compute. reflexivity. Qed.
Lemma decode_checks_ok l : forall ts k i cs t, decode_checks k l ts = true -> nth_error l i = Some cs -> nth_error ts i = Some t ->
  forall_from 256 0 (decode_check (k + i) cs t) = true.
Proof.
  induction l as [|c l IH]; intros [|t' ts] k i cs t H Hl Ht; try discriminate; try (destruct i; discriminate).
  cbn [decode_checks] in H. apply andb_prop in H as [H1 H2]. destruct i as [|i]; cbn in Hl, Ht.
  - injection Hl as <-. injection Ht as <-. rewrite Nat.add_0_r. exact H1.
  - replace (k + S i)%nat with (S k + i)%nat by lia. apply (IH ts (S k) i); assumption.
Qed.
Theorem C30_decode_published : forall i cs t b, nth_error all_sbcs i = Some cs -> nth_error all_std i = Some t -> 0 <= b < 256 ->
  match std_decode t b with
  | Some c => sb_decode cs b = Some c
  | None => sb_decode cs b = Some 0xFFFD \/
            ((16 <= i)%nat /\ 0x80 <= b <= 0x9F /\ sb_decode cs b = Some b) \/
            (i = 21%nat /\ b = 0xCA /\ sb_decode cs b = Some 0x5BA)
  end.
Proof.
  intros i cs t b Hi Ht Hb.
  pose proof (decode_checks_ok _ _ _ _ _ _ decode_checked Hi Ht) as H.
  pose proof (forall_from_ok _ _ _ H b ltac:(lia)) as E. unfold decode_check in E. cbn [Nat.add] in E.
  destruct (std_decode t b); [apply opt_is_ok; exact E|].
  apply orb_prop in E as [E|E]; [apply orb_prop in E as [E|E]|].
  - left. apply opt_is_ok. exact E.
  - right; left. apply andb_prop in E as [E1 E2]. split; [lia|]. split; [lia|apply opt_is_ok; exact E2].
  - right; right. apply andb_prop in E as [E1 E2]. split; [lia|]. split; [lia|apply opt_is_ok; exact E2].
Qed.
(* every byte is decoded, without reading out of a table, to a scalar value; is_valid tells
   which bytes decode to something else than U+FFFD; encoding gives the byte back *)
Theorem C30_encode_decode : forall cs b, is_sbcs cs -> 0 <= b < 256 ->
  exists c, sb_decode cs b = Some c /\ valid_cp false c /\ sb_valid cs b = negb (c =? 0xFFFD) /\
    (c <> 0xFFFD -> sb_encode cs c = Some b).
Proof.
  intros cs b HI Hb. destruct (is_sbcs_ok cs HI) as (exc & OK). destruct (so_dec _ _ OK b Hb) as (c & E & H1 & H2 & H3 & H4).
  exists c. split; [exact E|]. split; [|auto]. split; [lia|]. right. unfold is_surr. lia.
Qed.
(* encoding never fails; a code point that is mapped is decoded back, with two exceptions *)
Theorem C30_decode_encode_partial : forall i cs c, nth_error all_sbcs i = Some cs -> 0 <= c < 2 ^ 32 ->
  exists e, sb_encode cs c = Some e /\ 0 <= e /\
    (e < 0x100 -> c <> 0xFFFD ->
     (i = 20%nat -> ~ In c [0xD0; 0xDD; 0xDE; 0xF0; 0xFD; 0xFE]) -> (i = 24%nat -> c <> 0x9F) ->
     sb_decode cs e = Some c).
Proof.
  intros i cs c Hi Hc. destruct (so_enc _ _ (all_ok i cs Hi) c ltac:(lia)) as (e & E & H1 & H2).
  exists e. split; [exact E|]. split; [exact H1|]. intros H3 H4 H5 H6. apply H2; [lia|exact H4|].
  intros HIn. assert (i = 20%nat \/ i = 24%nat \/ exceptions i = []) as [D|[D|D]].
  { do 25 (destruct i as [|i]; [cbn; auto|]). right; right; reflexivity. }
  - rewrite D in HIn. exact (H5 D HIn).
  - rewrite D in HIn. cbn in HIn. apply (H6 D). lia.
  - rewrite D in HIn. exact HIn.
Qed.
(* windows-1254: the Icelandic letters U+00D0, U+00DD, U+00DE, U+00F0, U+00FD, U+00FE, which
   the charset does not have, are encoded as the bytes of Turkish letters *)
Theorem C30_windows_1254_refuted : nth_error all_sbcs 20 = Some windows_1254 /\
  Forall (fun c => exists e c', sb_encode windows_1254 c = Some e /\ e < 0x100 /\ sb_decode windows_1254 e = Some c' /\ c' <> c)
    [0xD0; 0xDD; 0xDE; 0xF0; 0xFD; 0xFE].
Proof.
  split; [reflexivity|].
  do 6 (apply Forall_cons; [do 2 eexists; split; [vm_compute; reflexivity|]; split; [lia|]; split; [vm_compute; reflexivity|discriminate]|]).
  apply Forall_nil.
Qed.
(* windows-1258: the control character U+009F is encoded as the byte of U+0178 *)
Theorem C30_windows_1258_refuted : nth_error all_sbcs 24 = Some windows_1258 /\
  exists e c', sb_encode windows_1258 0x9F = Some e /\ e < 0x100 /\ sb_decode windows_1258 e = Some c' /\ c' <> 0x9F.
Proof. split; [reflexivity|]. do 2 eexists. split; [vm_compute; reflexivity|]. split; [lia|]. split; [vm_compute; reflexivity|discriminate]. Qed.
(* what the per-character functions do: '?' for a code point that is not mapped *)
Theorem C30_encode_char : forall cs c, is_sbcs cs -> 0 <= c < 2 ^ 32 ->
  exists e, sb_encode cs c = Some e /\
    sb_encode_char cs c = Some [if e <? 0x100 then e else 0x3F] /\
    sb_validate cs c = Some (if e <? 0x100 then 1 else -1) /\
    forall n, sb_encode_fill cs n c = Some (OFillAll n (if e <? 0x100 then e else 0x3F)).
Proof.
  intros cs c HI Hc. destruct (is_sbcs_ok cs HI) as (exc & OK). destruct (so_enc _ _ OK c ltac:(lia)) as (e & E & H1 & _).
  exists e. split; [exact E|]. unfold sb_encode_char, sb_validate, sb_encode_fill. rewrite E. cbn [obind].
  destruct (Z.ltb_spec e 0x100); cbn [negb].
  - rewrite Z.mul_1_l, Z.mul_0_l, Z.add_0_r. rewrite (to_u_id 32) by (change (2 ^ 32) with 4294967296; lia).
    rewrite to_u8_id by lia. split; [reflexivity|]. split; [reflexivity|]. intros n. replace (0x100 <=? e) with false by lia.
    rewrite to_u8_id by lia. reflexivity.
  - rewrite Z.mul_0_l, Z.mul_1_l. split; [reflexivity|]. split; [reflexivity|]. intros n. replace (0x100 <=? e) with true by lia. reflexivity.
Qed.
(* whole texts: bytes -> UTF-32 -> bytes *)
Theorem C30_roundtrip : forall cs fl src space, is_sbcs cs -> Forall (fun b => 0 <= b < 256 /\ sb_valid cs b = true) src ->
  zlen src <= space ->
  exists u, sb_to_u32 cs fl src space = Some (mk_tr [] u RCompleted []) /\ zlen u = zlen src /\
    sb_from_u32 cs fl u space = Some (mk_tr [] src RCompleted []).
Proof.
  intros cs fl src space HI HV HL. destruct (is_sbcs_ok cs HI) as (exc & OK).
  exists (map (decoded cs) src). revert space HL.
  induction HV as [|b src [Hb HB] HF IH]; intros space HL; [auto|].
  rewrite zlen_cons in HL. pose proof (zlen_nonneg src). destruct (IH (space - 1) ltac:(lia)) as (E1 & E2 & E3).
  rewrite (valid_decoded cs exc OK b Hb) in HB. apply negb_true_iff in HB.
  cbn [map sb_to_u32 sb_from_u32]. rewrite (decode_some cs exc OK b Hb). cbn [obind]. rewrite HB. cbn [andb].
  replace (space =? 0) with false by lia. rewrite E1. cbn [obind]. split; [reflexivity|]. split; [rewrite !zlen_cons, E2; reflexivity|].
  assert (0 <= decoded cs b) as Hd by (destruct (decoded_range cs exc OK b Hb); lia).
  rewrite (encode_some cs exc OK) by exact Hd. rewrite (encoded_decoded cs exc OK b Hb) by lia. cbn [obind].
  replace (0x100 <=? b) with false by lia. cbn [andb]. rewrite E3. cbn [obind]. rewrite to_u8_id by lia. reflexivity.
Qed.
Example C30_ex : is_sbcs iso_8859_15 /\
  sb_to_u32 iso_8859_15 (mk_flags false true true) [0x61; 0xA4; 0xBE] 3 = Some (mk_tr [] [0x61; 0x20AC; 0x178] RCompleted []) /\
  std_decode std_iso_8859_15 0xA4 = Some 0x20AC.
Proof. split; [|split; reflexivity]. unfold is_sbcs, all_sbcs. do 14 right. left. reflexivity. Qed.
Print Assumptions C30_decode_published.
Print Assumptions C30_encode_decode.
Print Assumptions C30_decode_encode_partial.
Print Assumptions C30_windows_1254_refuted.
Print Assumptions C30_windows_1258_refuted.
Print Assumptions C30_encode_char.
Print Assumptions C30_roundtrip.

(* ---------- C31 ---------- *)
Theorem C31_ascii : forall cs b, is_sbcs cs -> 0 <= b < 0x80 ->
  sb_decode cs b = Some b /\ sb_encode cs b = Some b /\ sb_valid cs b = true /\
  sb_encode_char cs b = Some [b] /\ sb_validate cs b = Some 1 /\ sb_decode_unit cs b = Some b.
Proof.
  intros cs b HI Hb. destruct (is_sbcs_ok cs HI) as (exc & OK). destruct (so_ascii _ _ OK b Hb) as [E1 E2].
  split; [exact E1|]. split; [exact E2|]. split.
  - rewrite (valid_decoded cs exc OK b) by lia. unfold decoded. rewrite E1. replace (b =? 0xFFFD) with false by lia. reflexivity.
  - destruct (C30_encode_char cs b HI) as (e & E & H1 & H2 & _); [change (2 ^ 32) with 4294967296; lia|].
    rewrite E in E2. injection E2 as ->. replace (b <? 0x100) with true in H1, H2 by lia. auto.
Qed.
(* ASCII text is unchanged in both directions *)
Theorem C31_ascii_text : forall cs fl src space, is_sbcs cs -> Forall (fun b => 0 <= b < 0x80) src -> zlen src <= space ->
  sb_to_u32 cs fl src space = Some (mk_tr [] src RCompleted []) /\ sb_from_u32 cs fl src space = Some (mk_tr [] src RCompleted []).
Proof.
  intros cs fl src space HI HA. revert space. induction HA as [|b src Hb HF IH]; intros space HL; [auto|].
  rewrite zlen_cons in HL. pose proof (zlen_nonneg src). destruct (IH (space - 1) ltac:(lia)) as (E1 & E3).
  destruct (C31_ascii cs b HI Hb) as (D & E & _). cbn [sb_to_u32 sb_from_u32]. rewrite D, E. cbn [obind].
  replace (b =? 0xFFFD) with false by lia. replace (0x100 <=? b) with false by lia. cbn [andb].
  replace (space =? 0) with false by lia. rewrite E1, E3. cbn [obind]. rewrite to_u8_id by lia. auto.
Qed.
(* the printers' requirements on a charset hold, so the theorems about integers, strings,
   ... apply to text encoded in these charsets too *)
Theorem C31_charset_ok : forall cs, is_sbcs cs -> charset_ok (sb_charset cs).
Proof. exact sb_charset_ok. Qed.
Example C31_ex : is_sbcs windows_1258 /\ Forall (fun b => 0 <= b < 0x80) [0x5B; 0x7E; 0x5C].
Proof. split; [unfold is_sbcs, all_sbcs; do 24 right; left; reflexivity|repeat constructor; lia]. Qed.
Print Assumptions C31_ascii.
Print Assumptions C31_ascii_text.
Print Assumptions C31_charset_ok.

(* ---------- C32 ---------- *)
(* The first n units are converted one by one; n is as large as the space and the stop
   conditions allow.  [stops c]: why the operation stops at c, if it does. *)
Definition unit_by_unit (f : Z -> Z) (stops : Z -> option reason) (src : list Z) (space : Z) (r : tr_result) : Prop :=
  exists n, (n <= length src)%nat /\ Z.of_nat n <= space /\
    r_out r = map f (firstn n src) /\ r_rest r = skipn n src /\
    Forall (fun c => stops c = None) (firstn n src) /\
    match nth_error src n with
    | None => r_reason r = RCompleted
    | Some c => match stops c with
                | Some why => r_reason r = why
                | None => r_reason r = RInsufficient /\ Z.of_nat n = space
                end
    end.
Lemma run_units_spec (f : Z -> step) src : unitwise f -> forall space, 0 <= space ->
  unit_by_unit (fun c => hd 0 (st_out (f c))) (fun c => st_stop (f c)) src space (run_steps (map f src) space).
Proof.
  intros HU. assert (HS : forall s, srcs (map f s) = s) by (intros s; apply srcs_units; intros c; apply unit_src; exact HU).
  induction src as [|c src IH]; intros space Hs.
  { exists O. cbn. repeat split; auto; lia. }
  cbn [map run_steps]. rewrite (unit_out f c HU). change (srcs (f c :: map f src)) with (srcs (map f (c :: src))). rewrite HS.
  destruct (st_stop (f c)) as [why|] eqn:EC.
  - exists O. cbn. rewrite EC. repeat split; auto; lia.
  - destruct (Z.leb_spec 1 space).
    + destruct (IH (space - 1) ltac:(lia)) as (n & H1 & H2 & H3 & H4 & H5 & H6).
      exists (S n). cbn [r_out r_rest r_reason]. cbn [length firstn skipn map nth_error].
      split; [lia|]. split; [lia|]. split.
      { rewrite H3. destruct (HU c) as (_ & o & Eo). rewrite Eo. reflexivity. }
      split; [exact H4|]. split; [constructor; assumption|].
      destruct (nth_error src n); [|exact H6]. destruct (st_stop (f z)); [exact H6|]. split; [apply H6|lia].
    + exists O. cbn. rewrite EC. repeat split; auto; lia.
Qed.
Lemma unit_by_unit_ext f g h k src space r : (forall c, In c src -> f c = g c) -> (forall c, In c src -> h c = k c) ->
  unit_by_unit f h src space r -> unit_by_unit g k src space r.
Proof.
  intros HF HG (n & H1 & H2 & H3 & H4 & H5 & H6). exists n. split; [exact H1|]. split; [exact H2|].
  assert (HIn : forall c, In c (firstn n src) -> In c src) by (intros c Hc; rewrite <- (firstn_skipn n src); apply in_or_app; auto).
  split; [rewrite H3; apply map_ext_in; auto|]. split; [exact H4|]. split.
  - rewrite Forall_forall in *. intros c Hc. rewrite <- HG by auto. auto.
  - destruct (nth_error src n) eqn:E; [|exact H6]. rewrite <- HG by (eapply nth_error_In; exact E). exact H6.
Qed.
Theorem C32_to_u32 : forall cs fl src space, is_sbcs cs -> Forall (fun b => 0 <= b < 256) src -> 0 <= space ->
  exists r, sb_to_u32 cs fl src space = Some r /\
    unit_by_unit (decoded cs) (fun b => if (decoded cs b =? 0xFFFD) && f_stop_invalid fl then Some RInvalid else None) src space r /\
    sb_to_u32_size cs fl src space = Some (mk_szr (zlen (r_out r)) (r_rest r) (r_reason r)).
Proof.
  intros cs fl src space HI HB Hs. destruct (is_sbcs_ok cs HI) as (exc & OK).
  eexists. split; [apply (to_u32_steps cs exc OK); assumption|]. split.
  - exact (run_units_spec (to_step cs fl) src (to_step_unit cs fl) space Hs).
  - rewrite (to_u32_size_steps cs exc) by assumption. reflexivity.
Qed.
Theorem C32_from_u32 : forall cs fl src space, is_sbcs cs -> Forall (fun c => 0 <= c < 2 ^ 32) src -> 0 <= space ->
  exists r, sb_from_u32 cs fl src space = Some r /\
    unit_by_unit (fun c => if supports cs c then encoded cs c else 0x3F)
      (fun c => if supports cs c then None
                else if from_invalid fl c then (if f_stop_invalid fl then Some RInvalid else None)
                else if f_stop_unsupported fl then Some RUnsupported else None) src space r.
Proof.
  intros cs fl src space HI HB Hs. destruct (is_sbcs_ok cs HI) as (exc & OK).
  eexists. split; [apply (from_u32_steps cs exc OK); assumption|].
  eapply unit_by_unit_ext; [| |exact (run_units_spec (from_step cs fl) src (from_step_unit cs fl) space Hs)]; intros c _; cbn [from_step st_out st_stop hd].
  - destruct (supports cs c); reflexivity.
  - destruct (supports cs c), (from_invalid fl c), (f_stop_invalid fl), (f_stop_unsupported fl); reflexivity.
Qed.
Theorem C32_from_u32_unsafe : forall cs fl src space, is_sbcs cs -> Forall (fun c => 0 <= c < 2 ^ 32) src -> 0 <= space ->
  exists r, sb_from_u32_unsafe cs fl src space = Some r /\
    unit_by_unit (fun c => if supports cs c then encoded cs c else 0x3F)
      (fun c => if negb (supports cs c) && f_stop_unsupported fl then Some RUnsupported else None) src space r /\
    sb_from_u32_unsafe_size cs fl src space = Some (mk_szr (zlen (r_out r)) (r_rest r) (r_reason r)).
Proof.
  intros cs fl src space HI HB Hs. destruct (is_sbcs_ok cs HI) as (exc & OK).
  eexists. split; [apply (from_u32_unsafe_steps cs exc OK); assumption|]. split.
  - eapply unit_by_unit_ext; [| |exact (run_units_spec (from_unsafe_step cs fl) src (from_unsafe_step_unit cs fl) space Hs)]; intros c _; cbn [from_unsafe_step st_out st_stop hd].
    + destruct (supports cs c); reflexivity.
    + reflexivity.
  - rewrite (from_u32_unsafe_size_steps cs exc) by assumption. reflexivity.
Qed.
(* the sanitizer: valid bytes are kept, the others become '?' *)
Theorem C32_sanitize : forall cs fl src space, is_sbcs cs -> Forall (fun b => 0 <= b < 256) src -> 0 <= space ->
  exists r, sb_sanitize cs fl src space = Some r /\
    unit_by_unit (fun b => if sb_valid cs b then b else 0x3F)
      (fun b => if negb (sb_valid cs b) && f_stop_invalid fl then Some RInvalid else None) src space r /\
    sb_to_u32_size cs fl src space = Some (mk_szr (zlen (r_out r)) (r_rest r) (r_reason r)).
Proof.
  intros cs fl src space HI HB Hs. destruct (is_sbcs_ok cs HI) as (exc & OK).
  eexists. split; [apply (sanitize_steps cs exc OK); assumption|]. split.
  - rewrite Forall_forall in HB.
    eapply unit_by_unit_ext; [| |exact (run_units_spec (sanitize_step cs fl) src (sanitize_step_unit cs fl) space Hs)]; intros c Hc; cbn [sanitize_step st_out st_stop hd];
      rewrite (valid_decoded cs exc OK c) by auto.
    + destruct (decoded cs c =? 0xFFFD); reflexivity.
    + rewrite negb_involutive. reflexivity.
  - rewrite (sanitize_size_steps cs exc) by assumption. reflexivity.
Qed.
(* transcode_size towards a single-byte charset: right for texts without U+FFFD, 0xD800,
   U+FFFF and 0x110000, and for all texts when no stop flag is given *)
Theorem C32_from_u32_size_partial : forall cs fl src limit, is_sbcs cs -> Forall (fun c => 0 <= c < 2 ^ 32) src -> 0 <= limit ->
  (f_stop_invalid fl = false /\ f_stop_unsupported fl = false \/
   Forall (fun c => c <> 0xFFFD /\ c <> 0xD800 /\ c <> 0xFFFF /\ c <> 0x110000) src) ->
  exists r, sb_from_u32 cs fl src limit = Some r /\
    sb_from_u32_size cs fl src limit = Some (mk_szr (zlen (r_out r)) (r_rest r) (r_reason r)).
Proof.
  intros cs fl src limit HI HB Hs HE. apply In_nth_error in HI as [i Hi]. pose proof (all_ok i cs Hi) as OK.
  eexists. split; [apply (from_u32_steps cs _ OK); assumption|].
  destruct HE as [[E1 E2]|HE].
  - unfold sb_from_u32_size. rewrite E1, E2. cbn [andb]. erewrite plain_size_ok; [reflexivity|apply from_step_unit| |exact Hs].
    apply Forall_forall. intros c _. cbn [from_step st_stop]. rewrite E1, E2, !andb_false_r. reflexivity.
  - rewrite (from_u32_size_steps cs _ fl src limit OK (exceptions_small i)); [reflexivity|exact HB|exact Hs|].
    eapply Forall_impl; [|exact HE]. cbv beta. unfold size_exception. tauto.
Qed.
(* Exactly when it is right: no such code point is reached, that is, none is among the code
   points that transcode consumes or the one after. *)
Theorem C32_from_u32_size_iff_partial : forall cs fl src limit, is_sbcs cs -> Forall (fun c => 0 <= c < 2 ^ 32) src -> 0 <= limit ->
  exists z r, sb_from_u32_size cs fl src limit = Some z /\ sb_from_u32 cs fl src limit = Some r /\
    (z = mk_szr (zlen (r_out r)) (r_rest r) (r_reason r) <->
     ~ exists pre c post, src = pre ++ c :: post /\ zlen pre <= zlen (r_out r) /\
         (f_stop_invalid fl = true /\ f_lax fl = false /\ c = 0xFFFD \/
          f_stop_unsupported fl = true /\ f_stop_invalid fl = false /\
            (f_lax fl = false /\ (c = 0xD800 \/ c = 0xFFFF) \/ f_lax fl = true /\ c = 0x110000))).
Proof.
  intros cs fl src limit HI HB HL. apply In_nth_error in HI as [i Hi].
  destruct (from_u32_size_exact i cs fl src limit Hi HB HL) as (z & r & Hz & Hr & H). exists z, r. split; [exact Hz|]. split; [exact Hr|].
  unfold size_of_result in H. rewrite H. split; intros N (pre & c & post & E & H1 & H2); apply N; exists pre, c, post; auto.
Qed.
(* and wrong on each of them: with stop_on_invalid_sequence U+FFFD is written as '?' but
   counted as an error; with stop_on_unsupported_codepoint the size computation stops at
   U+FFFF and at 0xD800 (0x110000 when surrogates are allowed), transcode does not *)
Theorem C32_from_u32_size_refuted :
  (sb_from_u32 ascii (mk_flags false true false) [0xFFFD] 10 = Some (mk_tr [] [0x3F] RCompleted []) /\
   sb_from_u32_size ascii (mk_flags false true false) [0xFFFD] 10 = Some (mk_szr 0 [0xFFFD] RInvalid)) /\
  Forall (fun c => sb_from_u32 ascii (mk_flags false false true) [c] 10 = Some (mk_tr [] [0x3F] RCompleted [NoteInvalid [c] 1]) /\
                   sb_from_u32_size ascii (mk_flags false false true) [c] 10 = Some (mk_szr 0 [c] RUnsupported)) [0xD800; 0xFFFF] /\
  (sb_from_u32 ascii (mk_flags true false true) [0x110000] 10 = Some (mk_tr [] [0x3F] RCompleted [NoteInvalid [0x110000] 1]) /\
   sb_from_u32_size ascii (mk_flags true false true) [0x110000] 10 = Some (mk_szr 0 [0x110000] RUnsupported)).
Proof. repeat (constructor || split). Qed.
(* With a signed 32-bit source type (wchar_t on Linux) the same holds for units below 2^31 ... *)
Theorem C32_from_wchar_same : forall cs fl src space, Forall (fun c => 0 <= c < 2 ^ 31) src ->
  sb_from_u32_w cs fl src space = sb_from_u32 cs fl src space /\ sb_from_u32_size_w cs fl src space = sb_from_u32_size cs fl src space.
Proof. exact (fun cs fl src space H => conj (same_transcode cs fl src H space) (same_size cs fl src space H)). Qed.
(* ... and the others, which are not code points at all, are treated as valid code points the charset does not have;
   the size computation agrees with that *)
Theorem C32_from_wchar_partial : forall cs fl src space, is_sbcs cs -> Forall (fun c => 0 <= c < 2 ^ 32) src -> 0 <= space ->
  exists r, sb_from_u32_w cs fl src space = Some r /\
    unit_by_unit (fun c => if supports cs c then encoded cs c else 0x3F)
      (fun c => if supports cs c then None
                else if from_invalid fl c && (c <? 2 ^ 31) then (if f_stop_invalid fl then Some RInvalid else None)
                else if f_stop_unsupported fl then Some RUnsupported else None) src space r /\
    (Forall (fun c => c <> 0xFFFD /\ c <> 0xD800 /\ c <> 0xFFFF /\ c <> 0x110000) src ->
     sb_from_u32_size_w cs fl src space = Some (mk_szr (zlen (r_out r)) (r_rest r) (r_reason r))).
Proof.
  intros cs fl src space HI HB Hs. apply In_nth_error in HI as [i Hi]. pose proof (all_ok i cs Hi) as OK. pose proof (exceptions_small i) as HX.
  eexists. split; [apply (from_w_steps cs _ fl src OK HX); assumption|]. split.
  - eapply unit_by_unit_ext; [| |exact (run_units_spec (from_step_w cs fl) src (from_step_w_unit cs fl) space Hs)]; intros c Hc; unfold from_step_w; change (2 ^ 31) with 2147483648;
      destruct (Z.ltb_spec c 2147483648) as [HL|HL]; cbn [from_step st_out st_stop hd]; rewrite ?andb_true_r, ?andb_false_r.
    + destruct (supports cs c); reflexivity.
    + rewrite (big_unsupported cs _ c OK HX HL). reflexivity.
    + destruct (supports cs c), (from_invalid fl c), (f_stop_invalid fl), (f_stop_unsupported fl); reflexivity.
    + rewrite (big_unsupported cs _ c OK HX HL). reflexivity.
  - intros HE. rewrite (from_w_size_steps cs _ fl src space OK HX); [reflexivity|exact HB|exact Hs|].
    eapply Forall_impl; [|exact HE]. cbv beta. unfold size_exception. tauto.
Qed.
(* so that stop_on_invalid_sequence lets every one of them through, and it is reported as unsupported *)
Theorem C32_from_wchar_refuted : forall cs c, is_sbcs cs -> 2 ^ 31 <= c < 2 ^ 32 ->
  sb_from_u32_w cs (mk_flags false true false) [c] 1 = Some (mk_tr [] [0x3F] RCompleted [NoteUnsupported c]) /\
  sb_from_u32 cs (mk_flags false true false) [c] 1 = Some (mk_tr [c] [] RInvalid [NoteInvalid [c] 1]).
Proof.
  intros cs c HI Hc. apply In_nth_error in HI as [i Hi]. pose proof (all_ok i cs Hi) as OK. pose proof (exceptions_small i) as HX.
  assert (HU : Forall (fun c => 0 <= c < 2 ^ 32) [c]) by (repeat constructor; lia).
  assert (HN : supports cs c = false) by (apply (big_unsupported cs _ c OK HX); lia).
  rewrite (from_w_steps cs _ _ [c] OK HX HU) by lia. rewrite (from_u32_steps cs _ OK _ [c] HU) by lia.
  cbn [map run_steps]. unfold from_step_w, from_step. change (2 ^ 31) with 2147483648 in Hc. replace (c <? 2147483648) with false by lia. rewrite HN.
  assert (from_invalid (mk_flags false true false) c = true) as -> by (unfold from_invalid; replace (0x110000 <=? c) with true by lia; reflexivity).
  split; reflexivity.
Qed.
(* count_codepoints: one code point per byte *)
Theorem C32_count : forall src max, 0 <= max ->
  sb_count src max = Some (Z.min max (zlen src), skipn (Z.to_nat (Z.min max (zlen src))) src).
Proof.
  intros src max Hm. unfold sb_count. destruct (Z.ltb_spec max (zlen src)).
  - replace (max <? 0) with false by lia. rewrite Z.min_l by lia. reflexivity.
  - rewrite Z.min_r by lia. replace (Z.to_nat (zlen src)) with (length src) by (unfold zlen; lia). rewrite skipn_all. reflexivity.
Qed.
Example C32_ex : sb_from_u32 windows_1252 (mk_flags false false true) [0x61; 0x20AC; 0xD800; 0x100; 0x62] 5 =
  Some (mk_tr [0x100; 0x62] [0x61; 0x80; 0x3F] RUnsupported [NoteInvalid [0xD800; 0x100; 0x62] 1; NoteUnsupported 0x100]).
Proof. reflexivity. Qed.
Print Assumptions C32_to_u32.
Print Assumptions C32_from_u32.
Print Assumptions C32_from_u32_unsafe.
Print Assumptions C32_sanitize.
Print Assumptions C32_from_u32_size_partial.
Print Assumptions C32_from_u32_size_iff_partial.
Print Assumptions C32_from_u32_size_refuted.
Print Assumptions C32_from_wchar_same.
Print Assumptions C32_from_wchar_partial.
Print Assumptions C32_from_wchar_refuted.
Print Assumptions C32_count.

(* unsafe transcoding from a charset to itself: the units as they are, as many as fit *)
Theorem C32_copy : forall src space, 0 <= space -> exists r, sb_copy src space = Some r /\
  r_out r ++ r_rest r = src /\ zlen (r_out r) = Z.min space (zlen src) /\ r_notes r = [] /\
  (r_reason r = RCompleted <-> zlen src <= space) /\ (r_reason r = RInsufficient <-> space < zlen src).
Proof.
  intros src space Hs. unfold sb_copy. destruct (Z.leb_spec (zlen src) space).
  - eexists; split; [reflexivity|]. cbn. rewrite app_nil_r. repeat split; try lia; discriminate.
  - eexists; split; [reflexivity|]. cbn. rewrite firstn_skipn. split; [reflexivity|]. split; [unfold zlen in *; rewrite firstn_length; lia|]. repeat split; try lia; discriminate.
Qed.
Example C32_copy_ex : sb_copy [1; 2; 3] 3 = Some (mk_tr [] [1; 2; 3] RCompleted []) /\ sb_copy [1; 2; 3] 2 = Some (mk_tr [3] [1; 2] RInsufficient []).
Proof. split; reflexivity. Qed.
Print Assumptions C32_copy.

(* ---------- C33 ---------- *)
(* What happens to one code point with room for it: what is written, the stop reason, what
   the notifier is told. *)
Theorem C33_supported : forall cs fl c, is_sbcs cs -> 0 <= c < 2 ^ 32 -> supports cs c = true ->
  sb_from_u32 cs fl [c] 1 = Some (mk_tr [] [encoded cs c] RCompleted []).
Proof.
  intros cs fl c HI Hc HS. destruct (is_sbcs_ok cs HI) as (exc & OK).
  rewrite (from_u32_steps cs exc OK) by (first [lia | repeat constructor; lia]).
  cbn [map run_steps from_step st_stop st_out]. rewrite HS. cbn. unfold note_of. cbn. rewrite HS. reflexivity.
Qed.
(* not a valid code point: invalid sequence *)
Theorem C33_invalid : forall cs fl c, is_sbcs cs -> 0 <= c < 2 ^ 32 -> ~ valid_cp (f_lax fl) c ->
  sb_from_u32 cs fl [c] 1 = Some (if f_stop_invalid fl then mk_tr [c] [] RInvalid [NoteInvalid [c] 1]
                                  else mk_tr [] [0x3F] RCompleted [NoteInvalid [c] 1]).
Proof.
  intros cs fl c HI Hc HV. apply In_nth_error in HI as [i Hi]. pose proof (all_ok i cs Hi) as OK.
  assert (HN : 0x110000 <= c \/ f_lax fl = false /\ 0xD800 <= c <= 0xDFFF).
  { unfold valid_cp, is_surr in HV. destruct (Z_le_gt_dec 0x110000 c); [auto|right].
    destruct (f_lax fl); [exfalso; apply HV; split; [lia|auto]|]. split; [reflexivity|].
    destruct (Z_le_gt_dec 0xD800 c), (Z_le_gt_dec c 0xDFFF); try lia; exfalso; apply HV; (split; [lia|right; lia]). }
  assert (HS : supports cs c = false).
  { destruct (supports cs c) eqn:ES; [|reflexivity]. pose proof (exceptions_small i) as HX. rewrite Forall_forall in HX.
    destruct (supports_small cs _ OK c ltac:(lia) ES) as [|[|H]]; [lia|lia|]. specialize (HX c H). cbn beta in HX. lia. }
  assert (HF : from_invalid fl c = true).
  { unfold from_invalid, f_strict. destruct HN as [|[-> H]]; cbn [negb andb]; lia. }
  rewrite (from_u32_steps cs _ OK) by (first [lia | repeat constructor; lia]).
  cbn [map run_steps from_step st_stop st_out]. rewrite HS, HF. destruct (f_stop_invalid fl); cbn; unfold note_of; cbn; rewrite HS, HF; reflexivity.
Qed.
(* a valid code point with no mapping: unsupported -- except from U+E000 to U+FFFF *)
Theorem C33_unsupported_partial : forall cs fl c, is_sbcs cs -> 0 <= c < 2 ^ 32 -> valid_cp (f_lax fl) c -> supports cs c = false ->
  (f_lax fl = true \/ ~ (0xE000 <= c <= 0xFFFF)) ->
  sb_from_u32 cs fl [c] 1 = Some (if f_stop_unsupported fl then mk_tr [c] [] RUnsupported [NoteUnsupported c]
                                  else mk_tr [] [0x3F] RCompleted [NoteUnsupported c]).
Proof.
  intros cs fl c HI Hc [HV HV'] HS HE. destruct (is_sbcs_ok cs HI) as (exc & OK).
  assert (HF : from_invalid fl c = false).
  { unfold from_invalid, f_strict. unfold is_surr in HV'. destruct (f_lax fl); cbn [negb andb]; [lia|].
    destruct HV' as [|HV']; [discriminate|]. destruct HE as [|HE]; [discriminate|]. lia. }
  rewrite (from_u32_steps cs exc OK) by (first [lia | repeat constructor; lia]).
  cbn [map run_steps from_step st_stop st_out]. rewrite HS, HF. destruct (f_stop_unsupported fl); cbn; unfold note_of; cbn; rewrite HS, HF; reflexivity.
Qed.
(* every unsupported scalar value from U+E000 to U+FFFF is taken for a surrogate *)
Theorem C33_private_use_refuted : forall cs fl c, is_sbcs cs -> f_lax fl = false -> 0xE000 <= c <= 0xFFFF -> c <> 0xFFFD ->
  valid_cp false c /\ supports cs c = false /\
  sb_from_u32 cs fl [c] 1 = Some (if f_stop_invalid fl then mk_tr [c] [] RInvalid [NoteInvalid [c] 1]
                                  else mk_tr [] [0x3F] RCompleted [NoteInvalid [c] 1]).
Proof.
  intros cs fl c HI HL Hc HN. apply In_nth_error in HI as [i Hi]. pose proof (all_ok i cs Hi) as OK.
  split; [split; [lia|right; unfold is_surr; lia]|].
  assert (HS : supports cs c = false).
  { destruct (supports cs c) eqn:ES; [|reflexivity]. pose proof (exceptions_small i) as HX. rewrite Forall_forall in HX.
    destruct (supports_small cs _ OK c ltac:(lia) ES) as [|[|H]]; [lia|lia|]. specialize (HX c H). cbn beta in HX. lia. }
  split; [exact HS|].
  assert (HF : from_invalid fl c = true) by (unfold from_invalid, f_strict; rewrite HL; cbn [negb andb]; lia).
  rewrite (from_u32_steps cs _ OK) by (first [lia | repeat constructor; change (2 ^ 32) with 4294967296; lia]).
  cbn [map run_steps from_step st_stop st_out]. rewrite HS, HF. destruct (f_stop_invalid fl); cbn; unfold note_of; cbn; rewrite HS, HF; reflexivity.
Qed.
Example C33_ex : sb_from_u32 iso_8859_1 (mk_flags false false true) [0x20AC] 1 = Some (mk_tr [0x20AC] [] RUnsupported [NoteUnsupported 0x20AC]) /\
  sb_from_u32 iso_8859_1 (mk_flags false true true) [0xFF01] 1 = Some (mk_tr [0xFF01] [] RInvalid [NoteInvalid [0xFF01] 1]).
Proof. split; reflexivity. Qed.
Print Assumptions C33_supported.
Print Assumptions C33_invalid.
Print Assumptions C33_unsupported_partial.
Print Assumptions C33_private_use_refuted.
