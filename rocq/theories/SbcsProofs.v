(* Facts about the 25 single-byte charsets. *)
From Verif Require Import Base DestModel DestProofs TransSpec SbcsTables SbcsSpec SbcsModel CharsetModel.

(* ---------- lower_bound ---------- *)
Lemma nth_error_z {A} (l : list A) i : 0 <= i < zlen l -> exists x, nth_error l (Z.to_nat i) = Some x.
Proof.
  intros H. destruct (nth_error l (Z.to_nat i)) as [x|] eqn:E; [eauto|].
  apply nth_error_None in E. unfold zlen in H. lia.
Qed.
Definition sorted_map (m : list (Z * Z)) : Prop :=
  forall i j a b, (i < j)%nat -> nth_error m i = Some a -> nth_error m j = Some b -> fst a < fst b.
Lemma lower_bound_loop_ok m ch : forall fuel first len, (Z.to_nat len < fuel)%nat -> 0 <= first -> 0 <= len -> first + len <= zlen m ->
  exists i, lower_bound_loop fuel m ch first len = Some i /\ first <= i <= first + len /\
    (sorted_map m ->
     (forall k a, (k < Z.to_nat first)%nat -> nth_error m k = Some a -> fst a < ch) ->
     (forall k a, (Z.to_nat (first + len) <= k)%nat -> nth_error m k = Some a -> ch <= fst a) ->
     (forall k a, (k < Z.to_nat i)%nat -> nth_error m k = Some a -> fst a < ch) /\
     (forall k a, (Z.to_nat i <= k)%nat -> nth_error m k = Some a -> ch <= fst a)).
Proof.
  induction fuel as [|fuel IH]; intros first len HF H0 H1 H2; [lia|]. cbn [lower_bound_loop].
  destruct (Z.leb_spec len 0).
  - exists first. split; [reflexivity|]. split; [lia|]. intros _ HA HB. replace (first + len) with first in HB by lia. auto.
  - destruct (nth_error_z m (first + len / 2)) as [e E]; [lia|]. rewrite E. cbn [obind].
    destruct (Z.ltb_spec (fst e) ch).
    + destruct (IH (first + len / 2 + 1) (len - (len / 2 + 1))) as (i & Ei & Hi & HR); [lia..|].
      exists i. split; [exact Ei|]. split; [lia|]. intros HS HA HB. apply HR; [exact HS| |].
      * intros k a Hk Ha. destruct (Nat.eq_dec k (Z.to_nat (first + len / 2))) as [->|]; [congruence|].
        assert (k < Z.to_nat (first + len / 2))%nat by lia. specialize (HS _ _ _ _ H4 Ha E). lia.
      * intros k a Hk Ha. apply (HB k a); [|exact Ha]. lia.
    + destruct (IH first (len / 2)) as (i & Ei & Hi & HR); [lia..|].
      exists i. split; [exact Ei|]. split; [lia|]. intros HS HA HB. apply HR; [exact HS|exact HA|].
      intros k a Hk Ha. destruct (Nat.eq_dec k (Z.to_nat (first + len / 2))) as [->|]; [congruence|].
      assert (Z.to_nat (first + len / 2) < k)%nat by lia. specialize (HS _ _ _ _ H4 E Ha). lia.
Qed.
Fixpoint sorted_keys (m : list (Z * Z)) : bool :=
  match m with
  | [] => true
  | a :: r => match r with [] => true | b :: _ => fst a <? fst b end && sorted_keys r
  end.
Lemma sorted_keys_head a r : sorted_keys (a :: r) = true -> forall j b, nth_error r j = Some b -> fst a < fst b.
Proof.
  revert a. induction r as [|c r IH]; intros a H j b Hj; [destruct j; discriminate|].
  cbn [sorted_keys] in H. apply andb_prop in H as [H1 H2]. destruct j as [|j]; cbn in Hj; [injection Hj as <-; lia|].
  specialize (IH c H2 j b Hj). lia.
Qed.
Lemma sorted_keys_ok m : sorted_keys m = true -> sorted_map m.
Proof.
  induction m as [|a r IH]; intros H i j x y Hij Hi Hj; [destruct i; discriminate|].
  destruct j as [|j]; [lia|]. cbn in Hj. destruct i as [|i]; cbn in Hi.
  - injection Hi as <-. eapply sorted_keys_head; eassumption.
  - cbn [sorted_keys] in H. apply andb_prop in H as [_ H2]. eapply (IH H2 i j); eauto. lia.
Qed.
(* the value of a key *)
Fixpoint assoc (m : list (Z * Z)) (ch : Z) : Z :=
  match m with [] => 0x100 | (k, v) :: r => if k =? ch then v else assoc r ch end.
Lemma assoc_none m ch : (forall k a, nth_error m k = Some a -> fst a <> ch) -> assoc m ch = 0x100.
Proof.
  induction m as [|[k v] r IH]; intros H; [reflexivity|]. cbn [assoc].
  pose proof (H O _ eq_refl) as H0. cbn in H0. destruct (Z.eqb_spec k ch); [congruence|].
  apply IH. intros j a Ha. apply (H (S j)). exact Ha.
Qed.
Lemma assoc_at m i e : sorted_map m -> nth_error m i = Some e -> assoc m (fst e) = snd e.
Proof.
  revert i. induction m as [|[k v] r IH]; intros i HS Hi; [destruct i; discriminate|]. cbn [assoc].
  destruct i as [|i]; cbn in Hi.
  - injection Hi as <-. cbn. rewrite Z.eqb_refl. reflexivity.
  - pose proof (HS O (S i) (k, v) e ltac:(lia) eq_refl Hi) as Hlt. cbn in Hlt. destruct (Z.eqb_spec k (fst e)); [lia|].
    apply (IH i); [|exact Hi]. intros a b x y Hab Ha Hb. apply (HS (S a) (S b)); [lia|exact Ha|exact Hb].
Qed.
Lemma encode_ext_ok m ch : sorted_keys m = true -> encode_ext m ch = Some (assoc m ch).
Proof.
  intros HK. pose proof (sorted_keys_ok m HK) as HS. unfold encode_ext, lower_bound.
  destruct (lower_bound_loop_ok m ch (S (length m)) 0 (zlen m)) as (i & -> & Hi & HR);
    [unfold zlen; lia|lia|apply zlen_nonneg|lia|]. cbn [obind].
  destruct HR as [HA HB]; [exact HS|intros; lia| |].
  { intros k a Hk Ha. assert (nth_error m k <> None) as HN by congruence. apply nth_error_Some in HN. unfold zlen in Hk. lia. }
  destruct (Z.eqb_spec i (zlen m)) as [->|].
  - f_equal. symmetry. apply assoc_none. intros k a Ha. assert (nth_error m k <> None) as HN by congruence.
    apply nth_error_Some in HN. specialize (HA k a). unfold zlen in *. specialize (HA ltac:(lia) Ha). lia.
  - destruct (nth_error_z m i) as [e E]; [lia|]. rewrite E. cbn [obind]. f_equal.
    destruct (Z.eqb_spec (fst e) ch) as [<-|].
    + symmetry. eapply assoc_at; eassumption.
    + symmetry. apply assoc_none. intros k a Ha Hc. destruct (Nat.lt_trichotomy k (Z.to_nat i)) as [Hl|[->|Hl]].
      * specialize (HA k a Hl Ha). lia.
      * congruence.
      * pose proof (HS _ _ _ _ Hl E Ha). pose proof (HB (Z.to_nat i) e ltac:(lia) E). lia.
Qed.
Lemma assoc_in m ch : assoc m ch = 0x100 \/ In (ch, assoc m ch) m.
Proof.
  induction m as [|[k v] r IH]; [left; reflexivity|]. cbn [assoc]. destruct (Z.eqb_spec k ch) as [->|]; [right; left; reflexivity|].
  destruct IH as [IH|IH]; [left; exact IH|right; right; exact IH].
Qed.

(* ---------- what is known of each charset ---------- *)
Record sbcs_ok (cs : sbcs) (exc : list Z) : Prop := mk_sbcs_ok {
  so_dec : forall b, 0 <= b < 256 -> exists c, sb_decode cs b = Some c /\ 0 <= c <= 0xFFFD /\
      sb_valid cs b = negb (c =? 0xFFFD) /\ (c <> 0xFFFD -> sb_encode cs c = Some b) /\
      (c < 0xD800 \/ c = 0xFFFD);
  so_never : sb_never cs = true -> forall b, sb_valid cs b = true;
  so_enc : forall ch, 0 <= ch -> exists e, sb_encode cs ch = Some e /\ 0 <= e /\
      (e < 256 -> ch <> 0xFFFD -> ~ In ch exc -> sb_decode cs e = Some ch);
  so_fffd : sb_encode cs 0xFFFD = Some 0x3F;
  so_ascii : forall b, 0 <= b < 128 -> sb_decode cs b = Some b /\ sb_encode cs b = Some b }.

Fixpoint forall_from (n : nat) (c : Z) (f : Z -> bool) : bool :=
  match n with O => true | S n => f c && forall_from n (c + 1) f end.
Lemma forall_from_ok n c f : forall_from n c f = true -> forall x, c <= x < c + Z.of_nat n -> f x = true.
Proof.
  revert c. induction n as [|n IH]; intros c H x Hx; [lia|].
  cbn [forall_from] in H. apply andb_prop in H as [H1 H2].
  destruct (Z.eq_dec x c) as [->|]; [exact H1|]. apply (IH (c + 1)); [exact H2|lia].
Qed.
Definition opt_is (o : option Z) (x : Z) : bool := match o with Some y => y =? x | None => false end.
Definition byte_check (cs : sbcs) (b : Z) : bool :=
  match sb_decode cs b with
  | None => false
  | Some c => (0 <=? c) && (c <=? 0xFFFD) && Bool.eqb (sb_valid cs b) (negb (c =? 0xFFFD)) &&
              ((c =? 0xFFFD) || opt_is (sb_encode cs c) b) && ((c <? 0xD800) || (c =? 0xFFFD)) &&
              ((127 <? b) || (c =? b) && opt_is (sb_encode cs b) b)
  end.
Definition bytes_check (cs : sbcs) : bool := forall_from 256 0 (byte_check cs) && opt_is (sb_encode cs 0xFFFD) 0x3F.
Lemma opt_is_ok o x : opt_is o x = true -> o = Some x.
Proof. destruct o; cbn; [|discriminate]. intros H. f_equal. lia. Qed.
Lemma sbcs_ok_intro cs exc : bytes_check cs = true ->
  (sb_never cs = true -> forall b, sb_valid cs b = true) ->
  (forall ch, 0 <= ch -> exists e, sb_encode cs ch = Some e /\ 0 <= e /\
      (e < 256 -> ch <> 0xFFFD -> ~ In ch exc -> sb_decode cs e = Some ch)) -> sbcs_ok cs exc.
Proof.
  intros HB HN HE. unfold bytes_check in HB. apply andb_prop in HB as [HB HF]. split; [| exact HN | exact HE | apply opt_is_ok; exact HF |].
  - intros b Hb. pose proof (forall_from_ok _ _ _ HB b ltac:(lia)) as H. unfold byte_check in H.
    destruct (sb_decode cs b) as [c|]; [|discriminate]. exists c. split; [reflexivity|].
    repeat (apply andb_prop in H as [H ?]). split; [lia|]. split; [apply eqb_prop; assumption|].
    split; [|lia]. intros Hc. apply opt_is_ok. destruct (Z.eqb_spec c 0xFFFD); [congruence|assumption].
  - intros b Hb. pose proof (forall_from_ok _ _ _ HB b ltac:(lia)) as H. unfold byte_check in H.
    destruct (sb_decode cs b) as [c|]; [|discriminate]. apply andb_prop in H as [_ H].
    destruct (Z.ltb_spec 127 b); [lia|]. cbn [orb] in H. apply andb_prop in H as [H1 H2]. split; [f_equal; lia|apply opt_is_ok; exact H2].
Qed.
(* table-driven charsets: identity up to top, then the tables *)
Definition map_check (cs : sbcs) (exc : list Z) (m : list (Z * Z)) : bool :=
  forallb (fun kv => (0 <=? snd kv) && ((fst kv =? 0xFFFD) || existsb (Z.eqb (fst kv)) exc || opt_is (sb_decode cs (snd kv)) (fst kv))) m.
Lemma table_ok cs exc top m : bytes_check cs = true -> (sb_never cs = true -> forall b, sb_valid cs b = true) ->
  sorted_keys m = true -> 127 <= top <= 255 ->
  (forall ch, 0 <= ch -> sb_encode cs ch = if ch <=? top then Some ch else encode_ext m ch) ->
  (forall ch, 0 <= ch <= top -> sb_decode cs ch = Some ch) ->
  map_check cs exc m = true -> sbcs_ok cs exc.
Proof.
  intros HB HN HS HT HE HD HM. apply sbcs_ok_intro; [exact HB|exact HN|]. intros ch Hc. rewrite (HE ch Hc).
  destruct (Z.leb_spec ch top).
  - exists ch. split; [reflexivity|]. split; [lia|]. intros _ _ _. apply HD. lia.
  - rewrite encode_ext_ok by exact HS. exists (assoc m ch). split; [reflexivity|].
    destruct (assoc_in m ch) as [E|E]; [split; [lia|intros; lia]|].
    unfold map_check in HM. rewrite forallb_forall in HM. specialize (HM _ E). cbn [fst snd] in HM.
    apply andb_prop in HM as [H1 H2]. split; [lia|]. intros _ Hf Hx. apply opt_is_ok.
    destruct (Z.eqb_spec ch 0xFFFD); [congruence|]. destruct (existsb (Z.eqb ch) exc) eqn:EX; [|exact H2].
    exfalso. apply Hx. apply existsb_exists in EX as (y & Hy & Ey). replace ch with y by lia. exact Hy.
Qed.
Lemma switch_ok cs exc (low : Z -> bool) m : bytes_check cs = true -> (sb_never cs = true -> forall b, sb_valid cs b = true) ->
  (forall ch, 0 <= ch -> sb_encode cs ch = if low ch then Some ch else Some (assoc m ch)) ->
  (forall ch, 0 <= ch -> low ch = true -> ~ In ch exc -> sb_decode cs ch = Some ch) ->
  map_check cs exc m = true -> sbcs_ok cs exc.
Proof.
  intros HB HN HE HD HM. apply sbcs_ok_intro; [exact HB|exact HN|]. intros ch Hc. rewrite (HE ch Hc).
  destruct (low ch) eqn:EL.
  - exists ch. split; [reflexivity|]. split; [lia|]. intros _ _ Hx. apply HD; assumption.
  - exists (assoc m ch). split; [reflexivity|].
    destruct (assoc_in m ch) as [E|E]; [split; [lia|intros; lia]|].
    unfold map_check in HM. rewrite forallb_forall in HM. specialize (HM _ E). cbn [fst snd] in HM.
    apply andb_prop in HM as [H1 H2]. split; [lia|]. intros _ Hf Hx. apply opt_is_ok.
    destruct (Z.eqb_spec ch 0xFFFD); [congruence|]. destruct (existsb (Z.eqb ch) exc) eqn:EX; [|exact H2].
    exfalso. apply Hx. apply existsb_exists in EX as (y & Hy & Ey). replace ch with y by lia. exact Hy.
Qed.
Ltac same_switch := repeat match goal with
  | |- context [if ?a =? ?b then _ else _] => destruct (Z.eqb_spec a b); [subst; reflexivity|]
  end; try reflexivity.
Ltac table_tac cs T M := apply (table_ok _ _ T M);
  [vm_compute; reflexivity | first [reflexivity | discriminate] | vm_compute; reflexivity | lia
  | intros ch Hc; unfold cs; cbn [sb_encode];
    try (replace (ch <=? T) with (ch <? 0x80) by lia); reflexivity
  | intros ch Hc; unfold cs; cbn [sb_decode]
  | vm_compute; reflexivity].
Ltac special_tac cs enc dec :=
  apply sbcs_ok_intro; [vm_compute; reflexivity | first [reflexivity | discriminate] |];
  intros ch Hc; change (sb_encode cs ch) with (enc ch); unfold enc;
  repeat match goal with
  | |- context [if ?a =? ?b then _ else _] => destruct (Z.eqb_spec a b); [subst; eexists; split; [reflexivity|]; split; [clear; lia|]; intros; first [reflexivity | exfalso; cbn in *; tauto | lia] |]
  | |- exists e, Some 0x100 = Some e /\ _ => exists 0x100; split; [reflexivity|]; split; [clear; lia|]; let H := fresh in intros H; exfalso; revert H; clear; lia
  | |- context [if ?b then _ else _] => let E := fresh in destruct b eqn:E
  end; (eexists; split; [reflexivity|]; split; [lia|]; intros; try lia; cbn [In] in *);
  match goal with |- sb_decode cs ?e = _ => change (sb_decode cs e) with (dec e); unfold dec end;
  repeat match goal with
  | |- context [if ?a =? ?b then _ else _] => destruct (Z.eqb_spec a b); [exfalso; lia|]
  | |- context [if ?b then _ else _] => let E := fresh in destruct b eqn:E; try reflexivity; try (exfalso; lia)
  end; try reflexivity.
Lemma ascii_ok : sbcs_ok ascii [].
Proof.
  special_tac ascii ascii_encode ascii_decode.
Qed.
Lemma iso_8859_1_ok : sbcs_ok iso_8859_1 [].
Proof.
  special_tac iso_8859_1 iso_8859_1_encode iso_8859_1_decode.
Qed.
Lemma iso_8859_2_ok : sbcs_ok iso_8859_2 [].
Proof.
  table_tac iso_8859_2 0xA0 iso_8859_2_map. unfold iso_8859_2_decode. replace (ch <=? 0xA0) with true by lia. reflexivity.
Qed.
Lemma iso_8859_3_ok : sbcs_ok iso_8859_3 [].
Proof.
  table_tac iso_8859_3 0xA0 iso_8859_3_map. unfold iso_8859_3_decode. replace (ch <=? 0xA0) with true by lia. reflexivity.
Qed.
Lemma iso_8859_4_ok : sbcs_ok iso_8859_4 [].
Proof.
  table_tac iso_8859_4 0xA0 iso_8859_4_map. unfold iso_8859_4_decode. replace (ch <=? 0xA0) with true by lia. reflexivity.
Qed.
Lemma iso_8859_5_ok : sbcs_ok iso_8859_5 [].
Proof.
  table_tac iso_8859_5 0xA0 iso_8859_5_map. unfold iso_8859_5_decode. replace (ch <=? 0xA0) with true by lia. reflexivity.
Qed.
Lemma iso_8859_6_ok : sbcs_ok iso_8859_6 [].
Proof.
  table_tac iso_8859_6 0xA0 iso_8859_6_map. unfold iso_8859_6_decode. replace (ch <=? 0xA0) with true by lia. reflexivity.
Qed.
Lemma iso_8859_7_ok : sbcs_ok iso_8859_7 [].
Proof.
  table_tac iso_8859_7 0xA0 iso_8859_7_map. unfold iso_8859_7_decode. replace (ch <=? 0xA0) with true by lia. reflexivity.
Qed.
Lemma iso_8859_8_ok : sbcs_ok iso_8859_8 [].
Proof.
  table_tac iso_8859_8 0xA0 iso_8859_8_map. unfold iso_8859_8_decode. replace (ch <=? 0xA0) with true by lia. reflexivity.
Qed.
Lemma iso_8859_9_ok : sbcs_ok iso_8859_9 [].
Proof.
  special_tac iso_8859_9 iso_8859_9_encode iso_8859_9_decode.
Qed.
Lemma iso_8859_10_ok : sbcs_ok iso_8859_10 [].
Proof.
  table_tac iso_8859_10 0xA0 iso_8859_10_map. unfold iso_8859_10_decode. replace (ch <=? 0xA0) with true by lia. reflexivity.
Qed.
Lemma iso_8859_11_ok : sbcs_ok iso_8859_11 [].
Proof.
  table_tac iso_8859_11 0xA0 iso_8859_11_map. unfold iso_8859_11_decode. replace (ch <=? 0xA0) with true by lia. reflexivity.
Qed.
Lemma iso_8859_13_ok : sbcs_ok iso_8859_13 [].
Proof.
  table_tac iso_8859_13 0xA0 iso_8859_13_map. unfold iso_8859_13_decode. replace (ch <=? 0xA0) with true by lia. reflexivity.
Qed.
Lemma iso_8859_14_ok : sbcs_ok iso_8859_14 [].
Proof.
  table_tac iso_8859_14 0xA0 iso_8859_14_map. unfold iso_8859_14_decode. replace (ch <=? 0xA0) with true by lia. reflexivity.
Qed.
Lemma iso_8859_15_ok : sbcs_ok iso_8859_15 [].
Proof.
  special_tac iso_8859_15 iso_8859_15_encode iso_8859_15_decode.
  assert (forall_from 27 0xA4 (fun c => existsb (Z.eqb c) [0xA4; 0xA6; 0xA8; 0xB4; 0xB8; 0xBC; 0xBD; 0xBE] ||
    opt_is (ext_at iso_8859_15_ext (c - 0xA4)) c) = true) as HC by (vm_compute; reflexivity).
  pose proof (forall_from_ok _ _ _ HC ch ltac:(lia)) as E. cbn [existsb] in E. apply opt_is_ok.
  destruct (opt_is _ _); [reflexivity|]. lia.
Qed.
Lemma iso_8859_16_ok : sbcs_ok iso_8859_16 [].
Proof.
  table_tac iso_8859_16 0xA0 iso_8859_16_map. unfold iso_8859_16_decode. replace (ch <=? 0xA0) with true by lia. reflexivity.
Qed.
Lemma windows_1250_ok : sbcs_ok windows_1250 [].
Proof.
  table_tac windows_1250 0x7F windows_1250_map. unfold windows_1250_decode. replace (ch <? 0x80) with true by lia. reflexivity.
Qed.
Lemma windows_1251_ok : sbcs_ok windows_1251 [].
Proof.
  table_tac windows_1251 0x7F windows_1251_map. unfold windows_1251_decode. replace (ch <? 0x80) with true by lia. reflexivity.
Qed.
Lemma windows_1252_ok : sbcs_ok windows_1252 [].
Proof.
  apply (switch_ok _ _ (fun ch => (ch <? 0x80) || (0x9F <? ch) && (ch <? 0x100)) [(0x81, 0x81); (0x8d, 0x8D); (0x8f, 0x8F); (0x90, 0x90); (0x9d, 0x9D); (0x20ac, 0x80); (0x201a, 0x82); (0x192, 0x83); (0x201e, 0x84); (0x2026, 0x85); (0x2020, 0x86); (0x2021, 0x87); (0x2c6, 0x88); (0x2030, 0x89); (0x160, 0x8A); (0x2039, 0x8B); (0x152, 0x8C); (0x17d, 0x8E); (0x2018, 0x91); (0x2019, 0x92); (0x201c, 0x93); (0x201d, 0x94); (0x2022, 0x95); (0x2013, 0x96); (0x2014, 0x97); (0x2dc, 0x98); (0x2122, 0x99); (0x161, 0x9A); (0x203a, 0x9B); (0x153, 0x9C); (0x17e, 0x9E); (0x178, 0x9F); (0xfffd, 0x3F)]);
    [vm_compute; reflexivity | reflexivity | | | vm_compute; reflexivity].
  - intros ch Hc. change (sb_encode windows_1252 ch) with (windows_1252_encode ch). unfold windows_1252_encode.
    destruct ((ch <? 0x80) || (0x9F <? ch) && (ch <? 0x100)); [reflexivity|]. cbn [assoc].
    rewrite !(fun k => Z.eqb_sym k ch). same_switch.
  - intros ch Hc HL _. change (sb_decode windows_1252 ch) with (windows_1252_decode ch). unfold windows_1252_decode.
    replace ((ch <? 0x80) || (0x9F <? ch)) with true by lia. reflexivity.
Qed.
Lemma windows_1253_ok : sbcs_ok windows_1253 [].
Proof.
  table_tac windows_1253 0x7F windows_1253_map. unfold windows_1253_decode. replace (ch <? 0x80) with true by lia. reflexivity.
Qed.
Lemma windows_1254_ok : sbcs_ok windows_1254 [0xD0; 0xDD; 0xDE; 0xF0; 0xFD; 0xFE].
Proof.
  apply (switch_ok _ _ (fun ch => (ch <? 0x80) || (0xA0 <=? ch) && (ch <=? 0xFF)) [(0x81, 0x81); (0x8d, 0x8D); (0x8e, 0x8E); (0x8f, 0x8F); (0x90, 0x90); (0x9d, 0x9D); (0x9e, 0x9E); (0x11e, 0xD0); (0x11f, 0xF0); (0x130, 0xDD); (0x131, 0xFD); (0x152, 0x8C); (0x153, 0x9C); (0x15e, 0xDE); (0x15f, 0xFE); (0x160, 0x8A); (0x161, 0x9A); (0x178, 0x9F); (0x192, 0x83); (0x2c6, 0x88); (0x2dc, 0x98); (0x2013, 0x96); (0x2014, 0x97); (0x2018, 0x91); (0x2019, 0x92); (0x201a, 0x82); (0x201c, 0x93); (0x201d, 0x94); (0x201e, 0x84); (0x2020, 0x86); (0x2021, 0x87); (0x2022, 0x95); (0x2026, 0x85); (0x2030, 0x89); (0x2039, 0x8B); (0x203a, 0x9B); (0x20ac, 0x80); (0x2122, 0x99); (0xfffd, 0x3F)]);
    [vm_compute; reflexivity | reflexivity | | | vm_compute; reflexivity].
  - intros ch Hc. change (sb_encode windows_1254 ch) with (windows_1254_encode ch). unfold windows_1254_encode.
    destruct (ch <? 0x80); [reflexivity|]. cbn [assoc orb].
    rewrite !(fun k => Z.eqb_sym k ch). same_switch. destruct ((0xA0 <=? ch) && (ch <=? 0xFF)); reflexivity.
  - intros ch Hc HL HX. change (sb_decode windows_1254 ch) with (windows_1254_decode ch). unfold windows_1254_decode.
    cbn [In] in HX. destruct (Z.leb_spec ch 0x7F); [reflexivity|]. destruct (Z.leb_spec ch 0x9F); [lia|]. cbn [orb] in HL.
    repeat match goal with |- context [if ?a =? ?b then _ else _] => destruct (Z.eqb_spec a b); [exfalso; apply HX; subst; tauto|] end.
    reflexivity.
Qed.
Lemma windows_1255_ok : sbcs_ok windows_1255 [].
Proof.
  table_tac windows_1255 0x7F windows_1255_map. unfold windows_1255_decode. replace (ch <? 0x80) with true by lia. reflexivity.
Qed.
Lemma windows_1256_ok : sbcs_ok windows_1256 [].
Proof.
  table_tac windows_1256 0x7F windows_1256_map. unfold windows_1256_decode. replace (ch <? 0x80) with true by lia. reflexivity.
Qed.
Lemma windows_1257_ok : sbcs_ok windows_1257 [].
Proof.
  table_tac windows_1257 0x7F windows_1257_map. unfold windows_1257_decode. replace (ch <? 0x80) with true by lia. reflexivity.
Qed.
Lemma windows_1258_ok : sbcs_ok windows_1258 [0x9F].
Proof.
  table_tac windows_1258 0x7F windows_1258_map. unfold windows_1258_decode. replace (ch <? 0x80) with true by lia. reflexivity.
Qed.

(* ---------- all of them ---------- *)
Definition exceptions (i : nat) : list Z :=
  match i with 20%nat => [0xD0; 0xDD; 0xDE; 0xF0; 0xFD; 0xFE] | 24%nat => [0x9F] | _ => [] end.
Lemma all_ok i cs : nth_error all_sbcs i = Some cs -> sbcs_ok cs (exceptions i).
Proof.
  unfold all_sbcs. intros H.
  repeat (destruct i as [|i]; [injection H as <-|cbn [nth_error] in H]); [..|destruct i; discriminate]; cbn [exceptions];
  auto using ascii_ok, iso_8859_1_ok, iso_8859_2_ok, iso_8859_3_ok, iso_8859_4_ok, iso_8859_5_ok, iso_8859_6_ok, iso_8859_7_ok,
    iso_8859_8_ok, iso_8859_9_ok, iso_8859_10_ok, iso_8859_11_ok, iso_8859_13_ok, iso_8859_14_ok, iso_8859_15_ok, iso_8859_16_ok,
    windows_1250_ok, windows_1251_ok, windows_1252_ok, windows_1253_ok, windows_1254_ok, windows_1255_ok, windows_1256_ok,
    windows_1257_ok, windows_1258_ok.
Qed.
Definition is_sbcs (cs : sbcs) : Prop := In cs all_sbcs.
Lemma is_sbcs_ok cs : is_sbcs cs -> exists exc, sbcs_ok cs exc.
Proof. intros H. apply In_nth_error in H as [i H]. exists (exceptions i). apply all_ok. exact H. Qed.

(* decode and encode as total functions *)
Definition decoded (cs : sbcs) (b : Z) : Z := match sb_decode cs b with Some c => c | None => -1 end.
Definition encoded (cs : sbcs) (c : Z) : Z := match sb_encode cs c with Some e => e | None => -1 end.
Definition supports (cs : sbcs) (c : Z) : bool := encoded cs c <? 0x100.

Section Facts.
Variables (cs : sbcs) (exc : list Z).
Hypothesis OK : sbcs_ok cs exc.
Lemma decode_some b : 0 <= b < 256 -> sb_decode cs b = Some (decoded cs b).
Proof. intros H. destruct (so_dec _ _ OK b H) as (c & E & _). unfold decoded. rewrite E. reflexivity. Qed.
Lemma decoded_range b : 0 <= b < 256 -> 0 <= decoded cs b < 0xD800 \/ decoded cs b = 0xFFFD.
Proof. intros H. destruct (so_dec _ _ OK b H) as (c & E & H1 & _ & _ & H2). unfold decoded. rewrite E. lia. Qed.
Lemma valid_decoded b : 0 <= b < 256 -> sb_valid cs b = negb (decoded cs b =? 0xFFFD).
Proof. intros H. destruct (so_dec _ _ OK b H) as (c & E & _ & HV & _). unfold decoded. rewrite E. exact HV. Qed.
Lemma encode_some c : 0 <= c -> sb_encode cs c = Some (encoded cs c).
Proof. intros H. destruct (so_enc _ _ OK c H) as (e & E & _). unfold encoded. rewrite E. reflexivity. Qed.
Lemma encoded_nonneg c : 0 <= c -> 0 <= encoded cs c.
Proof. intros H. destruct (so_enc _ _ OK c H) as (e & E & H1 & _). unfold encoded. rewrite E. exact H1. Qed.
Lemma encoded_decoded b : 0 <= b < 256 -> decoded cs b <> 0xFFFD -> encoded cs (decoded cs b) = b.
Proof.
  intros H HN. destruct (so_dec _ _ OK b H) as (c & E & _ & _ & HE & _). unfold decoded in *. rewrite E in *.
  unfold encoded. rewrite HE by exact HN. reflexivity.
Qed.
Lemma decoded_encoded c : 0 <= c -> supports cs c = true -> c <> 0xFFFD -> ~ In c exc -> decoded cs (encoded cs c) = c.
Proof.
  intros H HS HN HX. destruct (so_enc _ _ OK c H) as (e & E & H1 & HD). unfold supports, encoded in *. rewrite E in *.
  unfold decoded. rewrite HD; auto. lia.
Qed.
Lemma supports_small c : 0 <= c -> supports cs c = true -> c < 0xD800 \/ c = 0xFFFD \/ In c exc.
Proof.
  intros H HS. destruct (Z.eq_dec c 0xFFFD); [lia|]. destruct (in_dec Z.eq_dec c exc); [auto|].
  pose proof (decoded_encoded c H HS n n0) as E. pose proof (encoded_nonneg c H). unfold supports in HS.
  destruct (decoded_range (encoded cs c)); lia.
Qed.

(* ---------- the transcoders as steps ---------- *)
Definition to_step (fl : flags) (b : Z) : step :=
  let bad := decoded cs b =? 0xFFFD in
  mk_step [b] [decoded cs b] (if bad then ReportInvalid else NoReport)
    (if bad && f_stop_invalid fl then Some RInvalid else None).
Definition from_step (fl : flags) (c : Z) : step :=
  let bad := negb (supports cs c) in
  let invalid := bad && from_invalid fl c in
  let unsupported := bad && negb (from_invalid fl c) in
  mk_step [c] [if bad then 0x3F else encoded cs c]
    (if unsupported then ReportUnsupported c else if invalid then ReportInvalid else NoReport)
    (if unsupported && f_stop_unsupported fl then Some RUnsupported
     else if invalid && f_stop_invalid fl then Some RInvalid else None).
Definition from_unsafe_step (fl : flags) (c : Z) : step :=
  let bad := negb (supports cs c) in
  mk_step [c] [if bad then 0x3F else encoded cs c]
    (if bad then ReportUnsupported c else NoReport)
    (if bad && f_stop_unsupported fl then Some RUnsupported else None).
Definition sanitize_step (fl : flags) (b : Z) : step :=
  let bad := decoded cs b =? 0xFFFD in
  mk_step [b] [if bad then 0x3F else b] (if bad then ReportInvalid else NoReport)
    (if bad && f_stop_invalid fl then Some RInvalid else None).
Lemma srcs_units (f : Z -> step) src : (forall c, st_src (f c) = [c]) -> srcs (map f src) = src.
Proof. intros H. induction src as [|c src IH]; [reflexivity|]. cbn [map srcs flat_map]. rewrite H. fold (srcs (map f src)). rewrite IH. reflexivity. Qed.

Definition bytes (s : list Z) : Prop := Forall (fun b => 0 <= b < 256) s.
Definition chars (s : list Z) : Prop := Forall (fun c => 0 <= c < 2 ^ 32) s.

Lemma to_u32_steps fl src : bytes src -> forall space, 0 <= space ->
  sb_to_u32 cs fl src space = Some (run_steps (map (to_step fl) src) space).
Proof.
  induction 1 as [|b src Hb HF IH]; intros space Hs; [reflexivity|]. cbn [sb_to_u32 map run_steps].
  rewrite (decode_some b Hb). cbn [obind]. cbn [to_step st_stop st_out st_src st_report note_of].
  fold (map (to_step fl) src). set (bad := decoded cs b =? 0xFFFD).
  unfold note_of, srcs. cbn [flat_map st_report st_src to_step]. fold (srcs (map (to_step fl) src)).
  rewrite (srcs_units (to_step fl) src) by reflexivity. fold bad. cbn [app].
  destruct bad, (f_stop_invalid fl); cbn [andb]; try reflexivity;
    (destruct (Z.eqb_spec space 0) as [->|]; [reflexivity|]);
    (replace (zlen [decoded cs b] <=? space) with true by (unfold zlen; cbn [length]; lia));
    rewrite IH by lia; cbn [obind]; unfold cons_result; reflexivity.
Qed.
Lemma to_u8_id e : 0 <= e < 256 -> to_u 8 e = e.
Proof. intros H. apply to_u_id. change (2 ^ 8) with 256. lia. Qed.
Lemma from_u32_steps fl src : chars src -> forall space, 0 <= space ->
  sb_from_u32 cs fl src space = Some (run_steps (map (from_step fl) src) space).
Proof.
  induction 1 as [|c src Hc HF IH]; intros space Hs; [reflexivity|]. cbn [sb_from_u32 map run_steps].
  rewrite (encode_some c) by lia. cbn [obind from_step st_stop st_out st_src].
  unfold note_of, srcs. cbn [flat_map st_report st_src from_step]. fold (srcs (map (from_step fl) src)).
  rewrite (srcs_units (from_step fl) src) by reflexivity. cbn [app].
  replace (0x100 <=? encoded cs c) with (negb (supports cs c)) by (unfold supports; lia).
  pose proof (encoded_nonneg c ltac:(lia)) as Hn.
  destruct (supports cs c) eqn:ES, (from_invalid fl c), (f_stop_unsupported fl), (f_stop_invalid fl); cbn [andb negb]; try reflexivity;
    (destruct (Z.eqb_spec space 0) as [->|]; [reflexivity|]);
    (match goal with |- context [zlen [?x] <=? space] => replace (zlen [x] <=? space) with true by (unfold zlen; cbn [length]; lia) end);
    rewrite IH by lia; cbn [obind]; unfold cons_result; rewrite ?to_u8_id by (unfold supports in ES; lia); reflexivity.
Qed.
Lemma from_u32_unsafe_steps fl src : chars src -> forall space, 0 <= space ->
  sb_from_u32_unsafe cs fl src space = Some (run_steps (map (from_unsafe_step fl) src) space).
Proof.
  induction 1 as [|c src Hc HF IH]; intros space Hs; [reflexivity|]. cbn [sb_from_u32_unsafe map run_steps].
  rewrite (encode_some c) by lia. cbn [obind from_unsafe_step st_stop st_out st_src].
  unfold note_of, srcs. cbn [flat_map st_report st_src from_unsafe_step]. fold (srcs (map (from_unsafe_step fl) src)).
  rewrite (srcs_units (from_unsafe_step fl) src) by reflexivity. cbn [app].
  replace (0x100 <=? encoded cs c) with (negb (supports cs c)) by (unfold supports; lia).
  pose proof (encoded_nonneg c ltac:(lia)) as Hn.
  destruct (supports cs c) eqn:ES, (f_stop_unsupported fl); cbn [andb negb]; try reflexivity;
    (destruct (Z.eqb_spec space 0) as [->|]; [reflexivity|]);
    (match goal with |- context [zlen [?x] <=? space] => replace (zlen [x] <=? space) with true by (unfold zlen; cbn [length]; lia) end);
    rewrite IH by lia; cbn [obind]; unfold cons_result; rewrite ?to_u8_id by (unfold supports in ES; lia); reflexivity.
Qed.
Lemma sanitize_steps fl src : bytes src -> forall space, 0 <= space ->
  sb_sanitize cs fl src space = Some (run_steps (map (sanitize_step fl) src) space).
Proof.
  induction 1 as [|b src Hb HF IH]; intros space Hs; [reflexivity|]. cbn [sb_sanitize map run_steps].
  rewrite (valid_decoded b Hb), negb_involutive. cbn [sanitize_step st_stop st_out st_src].
  unfold note_of, srcs. cbn [flat_map st_report st_src sanitize_step]. fold (srcs (map (sanitize_step fl) src)).
  rewrite (srcs_units (sanitize_step fl) src) by reflexivity. cbn [app].
  destruct (decoded cs b =? 0xFFFD), (f_stop_invalid fl); cbn [andb]; try reflexivity;
    (destruct (Z.eqb_spec space 0) as [->|]; [reflexivity|]);
    (match goal with |- context [zlen [?x] <=? space] => replace (zlen [x] <=? space) with true by (unfold zlen; cbn [length]; lia) end);
    rewrite IH by lia; cbn [obind]; unfold cons_result; reflexivity.
Qed.
End Facts.

(* ---------- sizes ---------- *)
(* unit-wise steps: one unit in, one unit out *)
Definition unitwise (f : Z -> step) : Prop := forall c, st_src (f c) = [c] /\ exists o, st_out (f c) = [o].
Lemma unit_src f c : unitwise f -> st_src (f c) = [c].
Proof. intros H. apply H. Qed.
Lemma unit_out f c : unitwise f -> zlen (st_out (f c)) = 1.
Proof. intros H. destruct (H c) as (_ & o & ->). reflexivity. Qed.
Lemma run_units_cons f c src space : unitwise f ->
  size_of_result (run_steps (map f (c :: src)) space) =
  match st_stop (f c) with
  | Some why => mk_szr 0 (c :: src) why
  | None => if 1 <=? space then
              let z := size_of_result (run_steps (map f src) (space - 1)) in mk_szr (1 + z_size z) (z_rest z) (z_reason z)
            else mk_szr 0 (c :: src) RInsufficient
  end.
Proof.
  intros HU. cbn [map run_steps]. unfold srcs. cbn [flat_map]. rewrite (unit_src f c HU), (unit_out f c HU).
  fold (srcs (map f src)). rewrite srcs_units by (intros; apply unit_src; exact HU).
  destruct (st_stop (f c)); [reflexivity|]. destruct (1 <=? space); [|reflexivity].
  unfold size_of_result. cbn [r_out r_rest r_reason z_size z_rest z_reason]. rewrite zlen_app, (unit_out f c HU). reflexivity.
Qed.
Definition shift (n : Z) (z : sz_res) : sz_res := mk_szr (n + z_size z) (z_rest z) (z_reason z).
Lemma shift_shift a b z : shift a (shift b z) = shift (a + b) z.
Proof. unfold shift. cbn. rewrite Z.add_assoc. reflexivity. Qed.
Lemma scan_all_ok f bad src : unitwise f -> Forall (fun c => bad c = Some (st_stop (f c))) src ->
  forall n space, zlen src <= space ->
  scan_all bad src n = Some (shift n (size_of_result (run_steps (map f src) space))).
Proof.
  intros HU HB. induction HB as [|c src Hc HF IH]; intros n space HL.
  - cbn. unfold shift. cbn. rewrite Z.add_0_r. reflexivity.
  - rewrite zlen_cons in HL. pose proof (zlen_nonneg src). cbn [scan_all]. rewrite Hc. cbn [obind]. rewrite run_units_cons by exact HU.
    destruct (st_stop (f c)); [unfold shift; cbn; rewrite Z.add_0_r; reflexivity|].
    replace (1 <=? space) with true by lia. rewrite (IH (n + 1) (space - 1)) by lia. cbv zeta.
    fold (shift 1 (size_of_result (run_steps (map f src) (space - 1)))). rewrite shift_shift. reflexivity.
Qed.
Lemma scan_limit_ok f bad src : unitwise f -> Forall (fun c => bad c = Some (st_stop (f c))) src ->
  forall n limit, n <= limit -> limit - n < zlen src ->
  scan_limit bad src n limit = Some (shift n (size_of_result (run_steps (map f src) (limit - n)))).
Proof.
  intros HU HB. induction HB as [|c src Hc HF IH]; intros n limit HN HL; [cbn in HL; lia|].
  rewrite zlen_cons in HL. cbn [scan_limit]. rewrite Hc. cbn [obind]. rewrite run_units_cons by exact HU.
  destruct (st_stop (f c)); [unfold shift; cbn; rewrite Z.add_0_r; reflexivity|].
  destruct (Z.eqb_spec n limit) as [->|].
  - replace (limit - limit) with 0 by lia. cbn. unfold shift. cbn. rewrite Z.add_0_r. reflexivity.
  - replace (1 <=? limit - n) with true by lia. rewrite IH by lia. cbv zeta.
    fold (shift 1 (size_of_result (run_steps (map f src) (limit - n - 1)))). rewrite shift_shift.
    replace (limit - (n + 1)) with (limit - n - 1) by lia. reflexivity.
Qed.
Lemma shift_0 z : shift 0 z = z.
Proof. destruct z; reflexivity. Qed.
Lemma scan_ok f bad src limit : unitwise f -> Forall (fun c => bad c = Some (st_stop (f c))) src -> 0 <= limit ->
  scan bad src limit = Some (size_of_result (run_steps (map f src) limit)).
Proof.
  intros HU HB HL. unfold scan. destruct (Z.leb_spec (zlen src) limit).
  - rewrite (scan_all_ok f bad src HU HB 0 limit) by lia. rewrite shift_0. reflexivity.
  - rewrite (scan_limit_ok f bad src HU HB 0 limit) by lia. rewrite Z.sub_0_r, shift_0. reflexivity.
Qed.
Lemma plain_size_ok f src limit : unitwise f -> Forall (fun c => st_stop (f c) = None) src -> 0 <= limit ->
  plain_size src limit = Some (size_of_result (run_steps (map f src) limit)).
Proof.
  intros HU HB HL.
  assert (plain_size src limit = scan (fun c => Some (st_stop (f c))) src limit) as ->.
  { unfold plain_size, scan. destruct (Z.leb_spec (zlen src) limit).
    - assert (forall n, scan_all (fun c => Some (st_stop (f c))) src n = Some (mk_szr (n + zlen src) [] RCompleted)) as E.
      { clear H. induction HB as [|c src Hc HF IH]; intros n; cbn [scan_all obind]; [rewrite Z.add_0_r; reflexivity|].
        rewrite Hc, IH, zlen_cons. do 2 f_equal. lia. }
      rewrite E. reflexivity.
    - replace (limit <? 0) with false by lia.
      assert (forall n, n <= limit -> limit - n < zlen src ->
        scan_limit (fun c => Some (st_stop (f c))) src n limit = Some (mk_szr limit (skipn (Z.to_nat (limit - n)) src) RInsufficient)) as E.
      { clear H. induction HB as [|c src Hc HF IH]; intros n H1 H2; [cbn in H2; lia|]. rewrite zlen_cons in H2.
        cbn [scan_limit obind]. rewrite Hc. destruct (Z.eqb_spec n limit) as [->|].
        - replace (limit - limit) with 0 by lia. reflexivity.
        - rewrite IH by lia. replace (Z.to_nat (limit - n)) with (S (Z.to_nat (limit - (n + 1)))) by lia. reflexivity. }
      rewrite E by lia. rewrite Z.sub_0_r. reflexivity. }
  apply scan_ok; [exact HU| |exact HL]. apply Forall_forall. reflexivity.
Qed.
Lemma to_step_unit cs fl : unitwise (to_step cs fl).
Proof. intros c. split; [reflexivity|eexists; reflexivity]. Qed.
Lemma from_step_unit cs fl : unitwise (from_step cs fl).
Proof. intros c. split; [reflexivity|eexists; reflexivity]. Qed.
Lemma from_unsafe_step_unit cs fl : unitwise (from_unsafe_step cs fl).
Proof. intros c. split; [reflexivity|eexists; reflexivity]. Qed.
Lemma sanitize_step_unit cs fl : unitwise (sanitize_step cs fl).
Proof. intros c. split; [reflexivity|eexists; reflexivity]. Qed.

Lemma to_u32_size_steps cs exc fl src limit : sbcs_ok cs exc -> bytes src -> 0 <= limit ->
  sb_to_u32_size cs fl src limit = Some (size_of_result (run_steps (map (to_step cs fl) src) limit)).
Proof.
  intros OK HB HL. unfold sb_to_u32_size. destruct (f_stop_invalid fl) eqn:EF.
  - unfold find_invalid_sequence. destruct (sb_never cs) eqn:EN.
    + apply plain_size_ok; [apply to_step_unit| |exact HL]. eapply Forall_impl; [|exact HB]. intros b Hb. cbn.
      rewrite EF, andb_true_r. pose proof (valid_decoded cs exc OK b Hb) as E. rewrite (so_never _ _ OK EN) in E.
      destruct (decoded cs b =? 0xFFFD); [discriminate|reflexivity].
    + apply scan_ok; [apply to_step_unit| |exact HL]. eapply Forall_impl; [|exact HB]. intros b Hb. cbn.
      rewrite EF, andb_true_r, (valid_decoded cs exc OK b Hb). destruct (decoded cs b =? 0xFFFD); reflexivity.
  - apply plain_size_ok; [apply to_step_unit| |exact HL]. apply Forall_forall. intros b _. cbn. rewrite EF, andb_false_r. reflexivity.
Qed.
Lemma sanitize_size_steps cs exc fl src limit : sbcs_ok cs exc -> bytes src -> 0 <= limit ->
  sb_to_u32_size cs fl src limit = Some (size_of_result (run_steps (map (sanitize_step cs fl) src) limit)).
Proof.
  intros OK HB HL. unfold sb_to_u32_size. destruct (f_stop_invalid fl) eqn:EF.
  - unfold find_invalid_sequence. destruct (sb_never cs) eqn:EN.
    + apply plain_size_ok; [apply sanitize_step_unit| |exact HL]. eapply Forall_impl; [|exact HB]. intros b Hb. cbn.
      rewrite EF, andb_true_r. pose proof (valid_decoded cs exc OK b Hb) as E. rewrite (so_never _ _ OK EN) in E.
      destruct (decoded cs b =? 0xFFFD); [discriminate|reflexivity].
    + apply scan_ok; [apply sanitize_step_unit| |exact HL]. eapply Forall_impl; [|exact HB]. intros b Hb. cbn.
      rewrite EF, andb_true_r, (valid_decoded cs exc OK b Hb). destruct (decoded cs b =? 0xFFFD); reflexivity.
  - apply plain_size_ok; [apply sanitize_step_unit| |exact HL]. apply Forall_forall. intros b _. cbn. rewrite EF, andb_false_r. reflexivity.
Qed.
Lemma from_u32_unsafe_size_steps cs exc fl src limit : sbcs_ok cs exc -> chars src -> 0 <= limit ->
  sb_from_u32_unsafe_size cs fl src limit = Some (size_of_result (run_steps (map (from_unsafe_step cs fl) src) limit)).
Proof.
  intros OK HB HL. unfold sb_from_u32_unsafe_size, find_first_unsupported_codepoint. destruct (f_stop_unsupported fl) eqn:EF.
  - apply scan_ok; [apply from_unsafe_step_unit| |exact HL]. eapply Forall_impl; [|exact HB]. intros c Hc. cbn beta in Hc. cbn [from_unsafe_step from_step st_stop].
    rewrite (encode_some cs exc OK c) by lia. cbn [obind]. rewrite EF, andb_true_r.
    replace (0x100 <=? encoded cs c) with (negb (supports cs c)) by (unfold supports; lia). reflexivity.
  - apply plain_size_ok; [apply from_unsafe_step_unit| |exact HL]. apply Forall_forall. intros b _. cbn. rewrite EF, andb_false_r. reflexivity.
Qed.
(* transcode_size to a single-byte charset is right except on these four values *)
Definition size_exception (c : Z) : Prop := c = 0xFFFD \/ c = 0xD800 \/ c = 0xFFFF \/ c = 0x110000.
Lemma from_u32_size_steps cs exc fl src limit : sbcs_ok cs exc -> Forall (fun x => x < 0xD800) exc -> chars src -> 0 <= limit ->
  Forall (fun c => ~ size_exception c) src ->
  sb_from_u32_size cs fl src limit = Some (size_of_result (run_steps (map (from_step cs fl) src) limit)).
Proof.
  intros OK HX HB HL HE. unfold sb_from_u32_size.
  assert (HC : forall bad, (forall c, 0 <= c < 2 ^ 32 -> ~ size_exception c -> bad c = Some (st_stop (from_step cs fl c))) ->
    scan bad src limit = Some (size_of_result (run_steps (map (from_step cs fl) src) limit))).
  { intros bad HBad. apply scan_ok; [apply from_step_unit| |exact HL]. apply Forall_forall. intros c Hc.
    unfold chars in HB. rewrite Forall_forall in HB, HE. apply HBad; auto. }
  assert (HS : forall c, 0 <= c -> ~ size_exception c -> supports cs c = true -> c < 0xD800).
  { intros c Hc Hn Hs. unfold size_exception in Hn. destruct (supports_small cs exc OK c Hc Hs) as [|[|Hi]]; [lia|lia|].
    rewrite Forall_forall in HX. apply HX. exact Hi. }
  destruct (f_stop_unsupported fl) eqn:EU, (f_stop_invalid fl) eqn:EI; cbn [andb].
  - apply HC. intros c Hc Hn. cbn [from_step st_stop]. rewrite EU, EI, !andb_true_r. rewrite (encode_some cs exc OK c) by lia. cbn [obind].
    replace (0x100 <=? encoded cs c) with (negb (supports cs c)) by (unfold supports; lia).
    specialize (HS c ltac:(lia) Hn). unfold size_invalid, from_invalid.
    destruct (supports cs c); cbn [negb andb]; [|destruct ((0x110000 <=? c) || f_strict fl && (0xD800 <=? c) && (c <=? 0xFFFF)); reflexivity].
    replace ((0x110000 <=? c) || f_strict fl && (0xD800 <=? c) && (c <=? 0xFFFF)) with false; [reflexivity|].
    specialize (HS eq_refl). replace (0xD800 <=? c) with false by lia. rewrite andb_false_r. lia.
  - apply HC. intros c Hc Hn. cbn [from_step st_stop]. rewrite EU, EI, !andb_true_r, !andb_false_r. rewrite (encode_some cs exc OK c) by lia. cbn [obind].
    replace (0x100 <=? encoded cs c) with (negb (supports cs c)) by (unfold supports; lia).
    assert (size_valid (f_strict fl) c = negb (from_invalid fl c)) as ->.
    { unfold size_valid, from_invalid, size_exception in *. destruct (f_strict fl); cbn [andb]; lia. }
    destruct (supports cs c), (from_invalid fl c); reflexivity.
  - apply HC. intros c Hc Hn. cbn [from_step st_stop]. rewrite EU, EI, !andb_true_r, !andb_false_r.
    specialize (HS c ltac:(lia) Hn). change (size_invalid (f_strict fl) c) with (from_invalid fl c). unfold from_invalid.
    destruct (supports cs c); cbn [negb andb]; [|destruct ((0x110000 <=? c) || f_strict fl && (0xD800 <=? c) && (c <=? 0xFFFF)); reflexivity].
    replace ((0x110000 <=? c) || f_strict fl && (0xD800 <=? c) && (c <=? 0xFFFF)) with false; [reflexivity|].
    specialize (HS eq_refl). replace (0xD800 <=? c) with false by lia. rewrite andb_false_r. lia.
  - apply plain_size_ok; [apply from_step_unit| |exact HL]. apply Forall_forall. intros c _. cbn. rewrite EU, EI, !andb_false_r. reflexivity.
Qed.
Lemma exceptions_small i : Forall (fun x => x < 0xD800) (exceptions i).
Proof. do 25 (destruct i as [|i]; [repeat constructor; cbn; lia|]). constructor. Qed.

(* the printers' charset record *)
Lemma sb_charset_ok cs : is_sbcs cs -> charset_ok (sb_charset cs).
Proof.
  intros HI. destruct (is_sbcs_ok cs HI) as (exc & OK).
  assert (HE : forall ch, 0 <= ch < 2 ^ 32 -> sb_encode_char cs ch = Some [if supports cs ch then encoded cs ch else 0x3F]).
  { intros ch Hc. unfold sb_encode_char. rewrite (encode_some cs exc OK ch) by lia. cbn [obind]. fold (supports cs ch).
    pose proof (encoded_nonneg cs exc OK ch ltac:(lia)). destruct (supports cs ch) eqn:ES; cbn [negb].
    - unfold supports in ES. rewrite Z.mul_1_l, Z.mul_0_l, Z.add_0_r. rewrite (to_u_id 32) by (change (2 ^ 32) with 4294967296; lia).
      rewrite to_u8_id by lia. reflexivity.
    - rewrite Z.mul_0_l, Z.mul_1_l. reflexivity. }
  split; cbn [sb_charset cs_encode cs_fill cs_size cs_validate].
  - intros n ch Hn Hc. rewrite (HE ch Hc). unfold sb_encode_fill. rewrite (encode_some cs exc OK ch) by lia. cbn [obind].
    pose proof (encoded_nonneg cs exc OK ch ltac:(lia)).
    assert (to_u 8 (if 0x100 <=? encoded cs ch then 0x3F else encoded cs ch) = (if supports cs ch then encoded cs ch else 0x3F)) as ->.
    { unfold supports. destruct (Z.leb_spec 0x100 (encoded cs ch)), (Z.ltb_spec (encoded cs ch) 0x100); try lia; [reflexivity|apply to_u8_id; lia]. }
    split; [exact Hn|]. cbn [op_text]. generalize (if supports cs ch then encoded cs ch else 0x3F). intros x.
    induction (Z.to_nat n) as [|k IH]; cbn [repeat concat app]; [reflexivity|]. rewrite IH. reflexivity.
  - intros n ch Hc. unfold sb_encode_fill. rewrite (encode_some cs exc OK ch) by lia. exact I.
  - intros ch Hc. rewrite (HE ch Hc). reflexivity.
  - intros ch Hc. rewrite (HE ch Hc). cbn. lia.
  - intros ch Hc. rewrite HE by (change (2 ^ 32) with 4294967296; lia). destruct (so_ascii _ _ OK ch ltac:(lia)) as [_ E].
    unfold supports, encoded. rewrite E. replace (ch <? 0x100) with true by lia. reflexivity.
  - intros ch Hc. rewrite (HE ch Hc). unfold sb_validate. rewrite (encode_some cs exc OK ch) by lia. cbn [obind].
    destruct (encoded cs ch <? 0x100); [right|left]; reflexivity.
Qed.
