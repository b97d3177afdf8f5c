(* The decoders meet the Unicode specification of UtfSpec.v. *)
From Verif Require Import Base UtfSpec UtfModel UtfBits.

(* Proof-internal: decoding by byte ranges (Table 3-7). *)
Inductive dec := DGood (cp : Z) (k : nat) | DBad (k : nat).

Definition second3 (lax : bool) (b0 b1 : Z) : bool :=
  (if b0 =? 0xE0 then 0xA0 <=? b1 else 0x80 <=? b1) &&
  (if (b0 =? 0xED) && negb lax then b1 <=? 0x9F else b1 <=? 0xBF).
Definition second4 (b0 b1 : Z) : bool :=
  (if b0 =? 0xF0 then 0x90 <=? b1 else 0x80 <=? b1) &&
  (if b0 =? 0xF4 then b1 <=? 0x8F else b1 <=? 0xBF).

Definition sem8 (lax : bool) (b0 : Z) (rest : list Z) : dec :=
  if b0 <? 0x80 then DGood b0 0
  else if (0xC2 <=? b0) && (b0 <=? 0xDF) then
    match rest with
    | b1 :: _ => if cont b1 then DGood ((b0 - 0xC0) * 64 + (b1 - 0x80)) 1 else DBad 0
    | [] => DBad 0
    end
  else if (0xE0 <=? b0) && (b0 <=? 0xEF) then
    match rest with
    | b1 :: r1 =>
        if second3 lax b0 b1 then
          match r1 with
          | b2 :: _ => if cont b2
              then DGood ((b0 - 0xE0) * 4096 + (b1 - 0x80) * 64 + (b2 - 0x80)) 2 else DBad 1
          | [] => DBad 1
          end
        else DBad 0
    | [] => DBad 0
    end
  else if (0xF0 <=? b0) && (b0 <=? 0xF4) then
    match rest with
    | b1 :: r1 =>
        if second4 b0 b1 then
          match r1 with
          | b2 :: r2 =>
              if cont b2 then
                match r2 with
                | b3 :: _ => if cont b3
                    then DGood ((b0 - 0xF0) * 262144 + (b1 - 0x80) * 4096
                                + (b2 - 0x80) * 64 + (b3 - 0x80)) 3 else DBad 2
                | [] => DBad 2
                end
              else DBad 1
          | [] => DBad 1
          end
        else DBad 0
    | [] => DBad 0
    end
  else DBad 0.

Definition conv (enc : Z -> list Z) (d : dec) : sres :=
  match d with DGood cp k => SGood (enc cp) k | DBad k => SBad k end.

Ltac bdestr :=
  repeat match goal with
  | |- context [if ?b then _ else _] =>
      match b with
      | context [if _ then _ else _] => fail 1
      | _ => let E := fresh "E" in destruct b eqn:E
      end
  end.

Ltac bsimp :=
  repeat match goal with
  | H : _ && _ = true |- _ => apply andb_prop in H; destruct H
  | H : (_ <=? _) = true |- _ => apply Z.leb_le in H
  | H : (_ <? _) = true |- _ => apply Z.ltb_lt in H
  | H : (_ =? _) = true |- _ => apply Z.eqb_eq in H
  | H : (_ <=? _) = false |- _ => apply Z.leb_gt in H
  | H : (_ <? _) = false |- _ => apply Z.ltb_ge in H
  | H : (_ =? _) = false |- _ => apply Z.eqb_neq in H
  | H : negb _ = true |- _ => apply negb_true_iff in H
  | H : negb _ = false |- _ => apply negb_false_iff in H
  end.

Lemma second3_bits lax b0 b1 : 0xE1 <= b0 <= 0xEF -> 0 <= b1 < 256 ->
  is_cont b1 && first_2_of_3_valid (first_2_of_3 b0 b1) lax = second3 lax b0 b1.
Proof.
  intros H0 H1. rewrite is_cont_spec, first_2_of_3_spec by lia.
  unfold first_2_of_3_valid, second3, cont. rewrite shr by lia. change (2 ^ 5) with 32.
  destruct lax; cbn [negb orb]; [|]; rewrite ?andb_false_r, ?andb_true_r; bdestr; lia.
Qed.

Lemma second4_bits b0 b1 : 0 <= b0 < 256 -> 0 <= b1 < 256 -> 0xF0 <= b0 \/ b0 < 0xC0 ->
  0x80 <= b0 ->
  is_cont b1 && first_2_of_4_valid (first_2_of_4 b0 b1) =
  (0xF0 <=? b0) && (b0 <=? 0xF4) && second4 b0 b1.
Proof.
  intros H0 H1 H2 H3. rewrite is_cont_spec, first_2_of_4_spec by lia.
  pose proof (xor_F0 b0 H0) as HX. revert HX.
  unfold first_2_of_4_valid, second4, cont.
  destruct (Z.leb_spec 0xF0 b0); intros HX; bsimp; [rewrite HX|]; bdestr; lia.
Qed.

Lemma sem8_k lax b0 rest : match sem8 lax b0 rest with
  | DGood _ k | DBad k => (k <= length rest)%nat end.
Proof.
  unfold sem8. bdestr; cbn; try lia;
  destruct rest as [|b1 r1]; cbn [length]; try lia; bdestr; cbn [length]; try lia;
  destruct r1 as [|b2 r2]; cbn [length]; try lia; bdestr; cbn [length]; try lia;
  destruct r2 as [|b3 r3]; cbn [length]; try lia; bdestr; cbn [length]; try lia.
Qed.

Lemma units_cons b c l : units b (c :: l) -> 0 <= c < 2 ^ b /\ units b l.
Proof. intros H; inversion H; auto. Qed.

(* Evaluate the enc functions on an argument known by range. *)
Lemma enc8_1 cp : cp < 0x80 -> enc8 cp = [cp].
Proof. intros; unfold enc8; bdestr; bsimp; try lia; reflexivity. Qed.
Lemma enc8_2 cp : 0x80 <= cp < 0x800 -> enc8 cp = [0xC0 + cp / 64; 0x80 + cp mod 64].
Proof. intros; unfold enc8; bdestr; bsimp; try lia; reflexivity. Qed.
Lemma enc8_3 cp : 0x800 <= cp < 0x10000 ->
  enc8 cp = [0xE0 + cp / 4096; 0x80 + cp / 64 mod 64; 0x80 + cp mod 64].
Proof. intros; unfold enc8; bdestr; bsimp; try lia; reflexivity. Qed.
Lemma enc8_4 cp : 0x10000 <= cp ->
  enc8 cp = [0xF0 + cp / 262144; 0x80 + cp / 4096 mod 64; 0x80 + cp / 64 mod 64; 0x80 + cp mod 64].
Proof. intros; unfold enc8; bdestr; bsimp; try lia; reflexivity. Qed.

Lemma enc8_b2 b0 b1 : 0xC2 <= b0 <= 0xDF -> 0x80 <= b1 <= 0xBF ->
  enc8 ((b0 - 0xC0) * 64 + (b1 - 0x80)) = [b0; b1].
Proof. intros; rewrite enc8_2 by lia. repeat f_equal; lia. Qed.
Lemma enc8_b3 b0 b1 b2 : 0xE0 <= b0 <= 0xEF -> 0x80 <= b1 <= 0xBF -> (b0 = 0xE0 -> 0xA0 <= b1) ->
  0x80 <= b2 <= 0xBF ->
  enc8 ((b0 - 0xE0) * 4096 + (b1 - 0x80) * 64 + (b2 - 0x80)) = [b0; b1; b2].
Proof. intros; rewrite enc8_3 by lia. f_equal; [lia|]. f_equal; [lia|]. f_equal; lia. Qed.
Lemma enc8_b4 b0 b1 b2 b3 : 0xF0 <= b0 <= 0xF4 -> 0x80 <= b1 <= 0xBF -> (b0 = 0xF0 -> 0x90 <= b1) ->
  0x80 <= b2 <= 0xBF -> 0x80 <= b3 <= 0xBF ->
  enc8 ((b0 - 0xF0) * 262144 + (b1 - 0x80) * 4096 + (b2 - 0x80) * 64 + (b3 - 0x80)) = [b0; b1; b2; b3].
Proof.
  intros; rewrite enc8_4 by lia. f_equal; [lia|]. f_equal; [lia|]. f_equal; [lia|]. f_equal; lia.
Qed.

Lemma second3_range lax b0 b1 : second3 lax b0 b1 = true ->
  0x80 <= b1 <= 0xBF /\ (b0 = 0xE0 -> 0xA0 <= b1) /\ (lax = false -> b0 = 0xED -> b1 <= 0x9F).
Proof. unfold second3. destruct lax; bdestr; cbn in *; bsimp; lia. Qed.
Lemma second4_range b0 b1 : second4 b0 b1 = true ->
  0x80 <= b1 <= 0xBF /\ (b0 = 0xF0 -> 0x90 <= b1) /\ (b0 = 0xF4 -> b1 <= 0x8F).
Proof. unfold second4. bdestr; cbn in *; bsimp; lia. Qed.
Lemma cont_range b : cont b = true -> 0x80 <= b <= 0xBF.
Proof. unfold cont; intros; bsimp; lia. Qed.

Ltac rng :=
  repeat match goal with
  | H : second3 _ _ _ = true |- _ => apply second3_range in H; destruct H as (? & ? & ?)
  | H : second4 _ _ = true |- _ => apply second4_range in H; destruct H as (? & ? & ?)
  | H : cont _ = true |- _ => apply cont_range in H
  end; bsimp.

Lemma valid3 lax b0 b1 b2 : 0xE0 <= b0 <= 0xEF -> second3 lax b0 b1 = true -> cont b2 = true ->
  valid_cp lax ((b0 - 0xE0) * 4096 + (b1 - 0x80) * 64 + (b2 - 0x80)).
Proof.
  intros H0 H1 H2. rng. split; [lia|]. destruct lax; [left; reflexivity|right].
  unfold is_surr. destruct (Z.eq_dec b0 0xED); lia.
Qed.
Lemma valid4 lax b0 b1 b2 b3 : 0xF0 <= b0 <= 0xF4 -> second4 b0 b1 = true -> cont b2 = true ->
  cont b3 = true ->
  valid_cp lax ((b0 - 0xF0) * 262144 + (b1 - 0x80) * 4096 + (b2 - 0x80) * 64 + (b3 - 0x80)).
Proof.
  intros H0 H1 H2 H3. rng. split; [lia|]. right. unfold is_surr.
  destruct (Z.eq_dec b0 0xF0), (Z.eq_dec b0 0xF4); lia.
Qed.

Lemma sem8_good lax b0 rest cp k : 0 <= b0 -> sem8 lax b0 rest = DGood cp k ->
  valid_cp lax cp /\ b0 :: rest = enc8 cp ++ skipn k rest.
Proof.
  intros Hb. unfold sem8. destruct (b0 <? 128) eqn:E0; bsimp.
  { intros [= <- <-]. split; [|rewrite enc8_1 by lia; reflexivity].
    split; [lia|right; unfold is_surr; lia]. }
  destruct ((0xC2 <=? b0) && (b0 <=? 0xDF)) eqn:E1; bsimp.
  { destruct rest as [|b1 r1]; [discriminate|]. destruct (cont b1) eqn:E2; [|discriminate].
    intros [= <- <-]. rng. rewrite enc8_b2 by lia. split; [|reflexivity].
    split; [lia|right; unfold is_surr; lia]. }
  destruct ((0xE0 <=? b0) && (b0 <=? 0xEF)) eqn:E2; bsimp.
  { destruct rest as [|b1 r1]; [discriminate|]. destruct (second3 lax b0 b1) eqn:E3; [|discriminate].
    destruct r1 as [|b2 r2]; [discriminate|]. destruct (cont b2) eqn:E4; [|discriminate].
    intros [= <- <-]. split; [apply valid3; auto|]. rng. rewrite enc8_b3 by lia. reflexivity. }
  destruct ((0xF0 <=? b0) && (b0 <=? 0xF4)) eqn:E3; bsimp; [|discriminate].
  destruct rest as [|b1 r1]; [discriminate|]. destruct (second4 b0 b1) eqn:E4; [|discriminate].
  destruct r1 as [|b2 r2]; [discriminate|]. destruct (cont b2) eqn:E5; [|discriminate].
  destruct r2 as [|b3 r3]; [discriminate|]. destruct (cont b3) eqn:E6; [|discriminate].
  intros [= <- <-]. split; [apply valid4; auto|]. rng. rewrite enc8_b4 by lia. reflexivity.
Qed.

(* Shapes of the encodings, by ranges of their bytes. *)
Lemma enc8_shape lax cp : valid_cp lax cp ->
  (exists b0, enc8 cp = [b0] /\ 0 <= b0 < 0x80 /\ cp = b0) \/
  (exists b0 b1, enc8 cp = [b0; b1] /\ 0xC2 <= b0 <= 0xDF /\ cont b1 = true
                 /\ cp = (b0 - 0xC0) * 64 + (b1 - 0x80)) \/
  (exists b0 b1 b2, enc8 cp = [b0; b1; b2] /\ 0xE0 <= b0 <= 0xEF /\ second3 lax b0 b1 = true
       /\ cont b2 = true /\ cp = (b0 - 0xE0) * 4096 + (b1 - 0x80) * 64 + (b2 - 0x80)) \/
  (exists b0 b1 b2 b3, enc8 cp = [b0; b1; b2; b3] /\ 0xF0 <= b0 <= 0xF4 /\ second4 b0 b1 = true
       /\ cont b2 = true /\ cont b3 = true
       /\ cp = (b0 - 0xF0) * 262144 + (b1 - 0x80) * 4096 + (b2 - 0x80) * 64 + (b3 - 0x80)).
Proof.
  intros [Hr Hs].
  destruct (Z_lt_le_dec cp 0x80). { left. exists cp. rewrite enc8_1 by lia. repeat split; lia. }
  destruct (Z_lt_le_dec cp 0x800).
  { right; left. exists (0xC0 + cp / 64), (0x80 + cp mod 64).
    rewrite enc8_2 by lia. unfold cont. repeat split; lia. }
  destruct (Z_lt_le_dec cp 0x10000).
  { right; right; left. exists (0xE0 + cp / 4096), (0x80 + cp / 64 mod 64), (0x80 + cp mod 64).
    rewrite enc8_3 by lia. unfold cont, second3. unfold is_surr in Hs.
    repeat split; try lia. destruct lax; cbn [negb]; rewrite ?andb_false_r, ?andb_true_r; bdestr; bsimp; lia. }
  right; right; right.
  exists (0xF0 + cp / 262144), (0x80 + cp / 4096 mod 64), (0x80 + cp / 64 mod 64), (0x80 + cp mod 64).
  rewrite enc8_4 by lia. unfold cont, second4.
  repeat split; try lia. bdestr; bsimp; lia.
Qed.

Ltac shape H :=
  destruct (enc8_shape _ _ H) as
    [(?b0 & ?He & ?H0 & ?Hcp)|[(?b0 & ?b1 & ?He & ?H0 & ?H1 & ?Hcp)|
    [(?b0 & ?b1 & ?b2 & ?He & ?H0 & ?H1 & ?H2 & ?Hcp)|
     (?b0 & ?b1 & ?b2 & ?b3 & ?He & ?H0 & ?H1 & ?H2 & ?H3 & ?Hcp)]]].

Ltac ltf :=
  repeat match goal with
  | |- context [?a <? ?b] => first [replace (a <? b) with true by lia | replace (a <? b) with false by lia]
  | |- context [?a <=? ?b] => first [replace (a <=? b) with true by lia | replace (a <=? b) with false by lia]
  end; cbn [andb].

(* Completeness: an encoded valid code point decodes to itself. *)
Lemma sem8_enc lax cp r : valid_cp lax cp -> exists b0 t,
  enc8 cp = b0 :: t /\ sem8 lax b0 (t ++ r) = DGood cp (length t).
Proof.
  intros H. shape H; rewrite He; do 2 eexists; (split; [reflexivity|]); unfold sem8; ltf;
  cbn [app length]; rewrite ?H1, ?H2, ?H3; subst; reflexivity.
Qed.

Lemma enc8_pos cp : (0 < length (enc8 cp))%nat.
Proof. unfold enc8; bdestr; cbn; lia. Qed.

Lemma prefix_cons {A} (x y : A) p l : is_prefix (x :: p) (y :: l) -> x = y /\ is_prefix p l.
Proof. intros [r H]. cbn in H. injection H as -> ->. split; [reflexivity|exists r; reflexivity]. Qed.
Lemma prefix_nil_inv {A} (x : A) p : is_prefix (x :: p) [] -> False.
Proof. intros [r H]. discriminate. Qed.

Lemma sem8_bad_unconv lax b0 rest k : sem8 lax b0 rest = DBad k ->
  unconvertible enc8 lax (b0 :: rest).
Proof.
  intros HB cp HV [r Hr]. destruct (sem8_enc lax cp r HV) as (c & t & He & Hs).
  rewrite He in Hr. cbn in Hr. injection Hr as -> ->. rewrite HB in Hs. discriminate.
Qed.

(* Every initial subsequence of a well-formed sequence found at the beginning of
   an unconvertible text is inside the part consumed. *)
Lemma sem8_bad_max lax b0 rest k w : sem8 lax b0 rest = DBad k ->
  is_prefix w (b0 :: rest) -> initial enc8 lax w -> (length w <= S k)%nat.
Proof.
  intros HB HP (cp & HV & HI).
  destruct w as [|w0 w]; [cbn; lia|].
  shape HV; rewrite He in HI.
  - destruct w as [|w1 w]; [cbn; lia|]. apply prefix_cons in HI as [_ HI]. now apply prefix_nil_inv in HI.
  - apply prefix_cons in HI as [-> HI]. apply prefix_cons in HP as [-> HP].
    destruct w as [|w1 w]; [cbn; lia|]. apply prefix_cons in HI as [-> HI].
    destruct w as [|w2 w]; [|now apply prefix_nil_inv in HI].
    destruct rest as [|r1 rest]; [now apply prefix_nil_inv in HP|].
    apply prefix_cons in HP as [<- HP]. revert HB. unfold sem8. ltf. rewrite H1. discriminate.
  - apply prefix_cons in HI as [-> HI]. apply prefix_cons in HP as [-> HP].
    destruct w as [|w1 w]; [cbn; lia|]. apply prefix_cons in HI as [-> HI].
    destruct rest as [|r1 rest]; [now apply prefix_nil_inv in HP|].
    apply prefix_cons in HP as [<- HP].
    revert HB. unfold sem8. ltf. rewrite H1.
    destruct w as [|w2 w].
    { destruct rest as [|r2 rest]; bdestr; intros [=]; subst; cbn; lia. }
    apply prefix_cons in HI as [-> HI].
    destruct rest as [|r2 rest]; [now apply prefix_nil_inv in HP|].
    apply prefix_cons in HP as [<- HP]. rewrite H2. discriminate.
  - apply prefix_cons in HI as [-> HI]. apply prefix_cons in HP as [-> HP].
    destruct w as [|w1 w]; [cbn; lia|]. apply prefix_cons in HI as [-> HI].
    destruct rest as [|r1 rest]; [now apply prefix_nil_inv in HP|].
    apply prefix_cons in HP as [<- HP].
    revert HB. unfold sem8. ltf. rewrite H1.
    destruct w as [|w2 w].
    { destruct rest as [|r2 rest]; [intros [=]; subst; cbn; lia|].
      destruct (cont r2); [|intros [=]; subst; cbn; lia].
      destruct rest; bdestr; intros [=]; subst; cbn; lia. }
    apply prefix_cons in HI as [-> HI].
    destruct rest as [|r2 rest]; [now apply prefix_nil_inv in HP|].
    apply prefix_cons in HP as [<- HP]. rewrite H2.
    destruct w as [|w3 w].
    { destruct rest as [|r3 rest]; bdestr; intros [=]; subst; cbn; lia. }
    apply prefix_cons in HI as [-> HI].
    destruct rest as [|r3 rest]; [now apply prefix_nil_inv in HP|].
    apply prefix_cons in HP as [<- HP]. rewrite H3. discriminate.
Qed.

Lemma sem8_bad_init lax b0 rest k : sem8 lax b0 rest = DBad k ->
  length (b0 :: firstn k rest) = 1%nat \/ initial enc8 lax (b0 :: firstn k rest).
Proof.
  unfold sem8. destruct (b0 <? 128) eqn:E0; bsimp; [discriminate|].
  destruct ((0xC2 <=? b0) && (b0 <=? 0xDF)) eqn:E1; bsimp.
  { destruct rest; bdestr; intros [= <-]; left; reflexivity. }
  destruct ((0xE0 <=? b0) && (b0 <=? 0xEF)) eqn:E2; bsimp.
  { destruct rest as [|b1 r1]; [intros [= <-]; left; reflexivity|].
    destruct (second3 lax b0 b1) eqn:E3; [|intros [= <-]; left; reflexivity].
    intros HB. assert (k = 1%nat) as -> by (destruct r1; revert HB; bdestr; intros [=]; auto).
    right. exists ((b0 - 0xE0) * 4096 + (b1 - 0x80) * 64 + (0x80 - 0x80)).
    split; [apply valid3; auto|]. rng. rewrite enc8_b3 by lia. exists [0x80]; reflexivity. }
  destruct ((0xF0 <=? b0) && (b0 <=? 0xF4)) eqn:E3; bsimp; [|intros [= <-]; left; reflexivity].
  destruct rest as [|b1 r1]; [intros [= <-]; left; reflexivity|].
  destruct (second4 b0 b1) eqn:E4; [|intros [= <-]; left; reflexivity].
  assert (initial enc8 lax [b0; b1]) as HI.
  { exists ((b0 - 0xF0) * 262144 + (b1 - 0x80) * 4096 + (0x80 - 0x80) * 64 + (0x80 - 0x80)).
    split; [apply valid4; auto|]. rng. rewrite enc8_b4 by lia. exists [0x80; 0x80]; reflexivity. }
  destruct r1 as [|b2 r2]; [intros [= <-]; right; exact HI|].
  destruct (cont b2) eqn:E5; [|intros [= <-]; right; exact HI].
  intros HB. assert (k = 2%nat) as -> by (destruct r2; revert HB; bdestr; intros [=]; auto).
  right. exists ((b0 - 0xF0) * 262144 + (b1 - 0x80) * 4096 + (b2 - 0x80) * 64 + (0x80 - 0x80)).
  split; [apply valid4; auto|]. rng. rewrite enc8_b4 by lia. exists [0x80]; reflexivity.
Qed.

(* ------------------------------------------------------------------ *)
(* What a loop iteration must satisfy. *)
Definition step_ok (src_enc dst_enc : Z -> list Z) (bits : Z) (lax : bool)
    (step : Z -> list Z -> sres) : Prop :=
  forall c rest, units bits (c :: rest) ->
  match step c rest with
  | SGood out k => exists cp, valid_cp lax cp /\ out = dst_enc cp /\
      c :: rest = src_enc cp ++ skipn k rest /\
      (forall cp', valid_cp lax cp' -> is_prefix (src_enc cp') (c :: rest) ->
                   (length (src_enc cp') <= length (src_enc cp))%nat)
  | SBad k => (k <= length rest)%nat /\ unconvertible src_enc lax (c :: rest) /\
      maximal_subpart src_enc lax (c :: firstn k rest) (c :: rest)
  end.

Lemma enc8_prefix_free lax cp cp' l : valid_cp lax cp -> valid_cp lax cp' ->
  is_prefix (enc8 cp) l -> is_prefix (enc8 cp') l -> cp = cp'.
Proof.
  intros V V' [r Hr] [r' Hr'].
  destruct (sem8_enc lax cp r V) as (c & t & He & Hs).
  destruct (sem8_enc lax cp' r' V') as (c' & t' & He' & Hs').
  rewrite He in Hr. rewrite He' in Hr'. cbn in Hr, Hr'. subst l. injection Hr' as -> Ht.
  rewrite Ht in Hs. rewrite Hs in Hs'. congruence.
Qed.

Lemma bad8_ok lax c rest k : sem8 lax c rest = DBad k ->
  (k <= length rest)%nat /\ unconvertible enc8 lax (c :: rest) /\
  maximal_subpart enc8 lax (c :: firstn k rest) (c :: rest).
Proof.
  intros HB. pose proof (sem8_k lax c rest) as Hk. rewrite HB in Hk.
  split; [exact Hk|]. split; [eapply sem8_bad_unconv; eauto|].
  split; [|split].
  - exists (skipn k rest). cbn. now rewrite firstn_skipn.
  - destruct (sem8_bad_init _ _ _ _ HB) as [|]; [left; assumption|right; split; [discriminate|assumption]].
  - intros w HP HI. cbn [length]. rewrite firstn_length_le by exact Hk.
    eapply sem8_bad_max; eauto.
Qed.

Lemma sem8_step_ok dst_enc lax step :
  (forall c rest, units 8 (c :: rest) -> step c rest = conv dst_enc (sem8 lax c rest)) ->
  step_ok enc8 dst_enc 8 lax step.
Proof.
  intros HS c rest HU. rewrite HS by exact HU.
  destruct (sem8 lax c rest) as [cp k|k] eqn:E; cbn [conv].
  - apply units_cons in HU as [Hc _].
    destruct (sem8_good _ _ _ _ _ (proj1 Hc) E) as [HV HE].
    exists cp. split; [exact HV|]. split; [reflexivity|]. split; [exact HE|].
    intros cp' HV' HP. rewrite (enc8_prefix_free lax cp' cp (c :: rest)); auto.
    exists (skipn k rest). exact HE.
  - apply bad8_ok. exact E.
Qed.

Ltac ub := repeat match goal with H : units _ (_ :: _) |- _ => apply units_cons in H as [? ?] end.

(* The guards of the three UTF-8 loops, by ranges. *)
Ltac guards8 :=
  change (2 ^ 8) with 256 in *;
  match goal with |- context [0xC0 =? Z.land ?c 0xE0] => rewrite (lead2_spec c) by lia end;
  match goal with |- context [0xE0 =? Z.land ?c 0xF0] => rewrite (lead3_spec c) by lia end.

Lemma step_8_32_sem lax c rest : units 8 (c :: rest) ->
  step_8_32 lax c rest = conv enc32 (sem8 lax c rest).
Proof.
  intros HU. ub. unfold step_8_32, sem8. guards8.
  destruct (c <? 0x80) eqn:E0; [bsimp; cbn [conv]; rewrite c32_id by lia; reflexivity|].
  destruct ((0xC0 <=? c) && (c <=? 0xDF)) eqn:E1.
  { destruct rest as [|b1 r1]; [bdestr; bsimp; try lia; reflexivity|]. ub.
    rewrite is_cont_spec by lia. destruct (cont b1) eqn:E2; [|rewrite andb_false_r; bdestr; bsimp; try lia; reflexivity].
    rewrite utf8_decode2_spec. rng. bdestr; bsimp; try lia; cbn [conv]; [|reflexivity].
    rewrite c32_id by lia. unfold enc32. do 2 f_equal; lia. }
  replace ((0xC2 <=? c) && (c <=? 0xDF)) with false by lia.
  destruct (0xE0 =? c) eqn:E2.
  { bsimp. subst c. cbn [Z.leb Z.compare Pos.compare Pos.compare_cont andb].
    destruct rest as [|b1 r1]; [reflexivity|]. ub. rewrite a0_spec by lia.
    replace (second3 lax 224 b1) with ((0xA0 <=? b1) && (b1 <=? 0xBF))
      by (unfold second3; destruct lax; cbn; reflexivity).
    destruct ((0xA0 <=? b1) && (b1 <=? 0xBF)) eqn:E3; [|reflexivity].
    destruct r1 as [|b2 r2]; [reflexivity|]. ub. rewrite is_cont_spec by lia.
    destruct (cont b2) eqn:E4; [|reflexivity]. rng. rewrite land_3F, lor_6. cbn [conv].
    rewrite c32_id by lia. unfold enc32. do 2 f_equal; lia. }
  destruct ((0xE0 <=? c) && (c <=? 0xEF)) eqn:E3.
  { bsimp. destruct rest as [|b1 r1]; [reflexivity|]. ub.
    rewrite second3_bits by lia. destruct (second3 lax c b1) eqn:E4; [|reflexivity].
    destruct r1 as [|b2 r2]; [reflexivity|]. ub. rewrite is_cont_spec by lia.
    destruct (cont b2) eqn:E5; [|reflexivity]. rewrite lor_6, first_2_of_3_spec. rng. cbn [conv].
    rewrite c32_id by lia. unfold enc32. do 2 f_equal; lia. }
  destruct rest as [|b1 r1]; [bdestr; reflexivity|]. ub.
  rewrite second4_bits by lia.
  destruct ((0xF0 <=? c) && (c <=? 0xF4)) eqn:E4; [|reflexivity]. cbn [andb].
  destruct (second4 c b1) eqn:E5; [|reflexivity].
  destruct r1 as [|b2 r2]; [reflexivity|]. ub. rewrite is_cont_spec by lia.
  destruct (cont b2) eqn:E6; [|reflexivity].
  destruct r2 as [|b3 r3]; [reflexivity|]. ub. rewrite is_cont_spec by lia.
  destruct (cont b3) eqn:E7; [|reflexivity].
  rewrite last_2_of_4_spec, first_2_of_4_spec. rng. cbn [conv].
  pose proof (xor_F0 c ltac:(lia)) as HX. replace (0xF0 <=? c) with true in HX by lia. bsimp. rewrite HX.
  rewrite c32_id by lia. unfold enc32. do 2 f_equal; lia.
Qed.

Lemma step_8_8_sem lax c rest : units 8 (c :: rest) ->
  step_8_8 lax c rest = conv enc8 (sem8 lax c rest).
Proof.
  intros HU. ub. unfold step_8_8, sem8. guards8.
  destruct (c <? 0x80) eqn:E0;
    [bsimp; cbn [conv]; rewrite c8_id, enc8_1 by lia; reflexivity|].
  destruct ((0xC0 <=? c) && (c <=? 0xDF)) eqn:E1.
  { destruct rest as [|b1 r1]; [bdestr; bsimp; try lia; reflexivity|]. ub.
    rewrite is_cont_spec by lia.
    destruct (cont b1) eqn:E2; [|rewrite andb_false_r; bdestr; bsimp; try lia; reflexivity].
    rng. bdestr; bsimp; try lia; cbn [conv]; [|reflexivity].
    rewrite enc8_b2, !c8_id by lia. reflexivity. }
  replace ((0xC2 <=? c) && (c <=? 0xDF)) with false by lia.
  destruct (0xE0 =? c) eqn:E2.
  { bsimp. subst c. cbn [Z.leb Z.compare Pos.compare Pos.compare_cont andb].
    destruct rest as [|b1 r1]; [reflexivity|]. ub. rewrite a0_spec' by lia.
    replace (second3 lax 224 b1) with ((0xA0 <=? b1) && (b1 <=? 0xBF))
      by (unfold second3; destruct lax; cbn; reflexivity).
    destruct ((0xA0 <=? b1) && (b1 <=? 0xBF)) eqn:E3; [|reflexivity].
    destruct r1 as [|b2 r2]; [reflexivity|]. ub. rewrite is_cont_spec by lia.
    destruct (cont b2) eqn:E4; [|reflexivity]. rng. cbn [conv].
    rewrite enc8_b3, !c8_id by lia. reflexivity. }
  destruct ((0xE0 <=? c) && (c <=? 0xEF)) eqn:E3.
  { bsimp. destruct rest as [|b1 r1]; [reflexivity|]. ub.
    rewrite second3_bits by lia. destruct (second3 lax c b1) eqn:E4; [|reflexivity].
    destruct r1 as [|b2 r2]; [reflexivity|]. ub. rewrite is_cont_spec by lia.
    destruct (cont b2) eqn:E5; [|reflexivity]. rng. cbn [conv].
    rewrite enc8_b3, !c8_id by lia. reflexivity. }
  destruct rest as [|b1 r1]; [bdestr; reflexivity|]. ub.
  rewrite second4_bits by lia.
  destruct ((0xF0 <=? c) && (c <=? 0xF4)) eqn:E4; [|reflexivity]. cbn [andb].
  destruct (second4 c b1) eqn:E5; [|reflexivity].
  destruct r1 as [|b2 r2]; [reflexivity|]. ub. rewrite is_cont_spec by lia.
  destruct (cont b2) eqn:E6; [|reflexivity].
  destruct r2 as [|b3 r3]; [reflexivity|]. ub. rewrite is_cont_spec by lia.
  destruct (cont b3) eqn:E7; [|reflexivity]. rng. cbn [conv].
  rewrite enc8_b4, !c8_id by lia. reflexivity.
Qed.

Lemma enc16_1 cp : cp < 0x10000 -> enc16 cp = [cp].
Proof. intros; unfold enc16; bdestr; bsimp; try lia; reflexivity. Qed.
Lemma enc16_2 cp : 0x10000 <= cp ->
  enc16 cp = [0xD800 + (cp - 0x10000) / 1024; 0xDC00 + (cp - 0x10000) mod 1024].
Proof. intros; unfold enc16; bdestr; bsimp; try lia; reflexivity. Qed.

Lemma step_8_16_sem lax c rest : units 8 (c :: rest) ->
  step_8_16 lax c rest = conv enc16 (sem8 lax c rest).
Proof.
  intros HU. ub. unfold step_8_16, sem8. guards8.
  destruct (c <? 0x80) eqn:E0;
    [bsimp; cbn [conv]; rewrite c16_id, enc16_1 by lia; reflexivity|].
  destruct ((0xC0 <=? c) && (c <=? 0xDF)) eqn:E1.
  { destruct rest as [|b1 r1]; [bdestr; bsimp; try lia; reflexivity|]. ub.
    rewrite is_cont_spec by lia. destruct (cont b1) eqn:E2; [|rewrite andb_false_r; bdestr; bsimp; try lia; reflexivity].
    rewrite utf8_decode2_spec. rng. bdestr; bsimp; try lia; cbn [conv]; [|reflexivity].
    rewrite c16_id, enc16_1 by lia. do 2 f_equal; lia. }
  replace ((0xC2 <=? c) && (c <=? 0xDF)) with false by lia.
  destruct (0xE0 =? c) eqn:E2.
  { bsimp. subst c. cbn [Z.leb Z.compare Pos.compare Pos.compare_cont andb].
    destruct rest as [|b1 r1]; [reflexivity|]. ub. rewrite a0_spec by lia.
    replace (second3 lax 224 b1) with ((0xA0 <=? b1) && (b1 <=? 0xBF))
      by (unfold second3; destruct lax; cbn; reflexivity).
    destruct ((0xA0 <=? b1) && (b1 <=? 0xBF)) eqn:E3; [|reflexivity].
    destruct r1 as [|b2 r2]; [reflexivity|]. ub. rewrite is_cont_spec by lia.
    destruct (cont b2) eqn:E4; [|reflexivity]. rng. rewrite land_3F, lor_6. cbn [conv].
    rewrite c16_id, enc16_1 by lia. do 2 f_equal; lia. }
  destruct ((0xE0 <=? c) && (c <=? 0xEF)) eqn:E3.
  { bsimp. destruct rest as [|b1 r1]; [reflexivity|]. ub.
    rewrite second3_bits by lia. destruct (second3 lax c b1) eqn:E4; [|reflexivity].
    destruct r1 as [|b2 r2]; [reflexivity|]. ub. rewrite is_cont_spec by lia.
    destruct (cont b2) eqn:E5; [|reflexivity]. rewrite lor_6, first_2_of_3_spec. rng. cbn [conv].
    rewrite c16_id, enc16_1 by lia. do 2 f_equal; lia. }
  destruct rest as [|b1 r1]; [bdestr; reflexivity|]. ub.
  rewrite second4_bits by lia.
  destruct ((0xF0 <=? c) && (c <=? 0xF4)) eqn:E4; [|reflexivity]. cbn [andb].
  destruct (second4 c b1) eqn:E5; [|reflexivity].
  destruct r1 as [|b2 r2]; [reflexivity|]. ub. rewrite is_cont_spec by lia.
  destruct (cont b2) eqn:E6; [|reflexivity].
  destruct r2 as [|b3 r3]; [reflexivity|]. ub. rewrite is_cont_spec by lia.
  destruct (cont b3) eqn:E7; [|reflexivity].
  rewrite last_2_of_4_spec, first_2_of_4_spec. rng. cbn [conv].
  pose proof (xor_F0 c ltac:(lia)) as HX. replace (0xF0 <=? c) with true in HX by lia. bsimp. rewrite HX.
  set (cp := (c - 240) * 262144 + (b1 - 128) * 4096 + (b2 - 128) * 64 + (b3 - 128)).
  replace (((c - 240) * 64 + b1 mod 64) * 4096 + b2 mod 64 * 64 + b3 mod 64) with cp
    by (unfold cp; lia).
  assert (0x10000 <= cp < 0x110000) as Hcp by (unfold cp; lia). clearbody cp.
  rewrite to_u_id by (change (2 ^ 32) with 4294967296; lia).
  rewrite land_3FF, shr by lia. change (2 ^ 10) with 1024.
  rewrite !c16_id, enc16_2 by lia. reflexivity.
Qed.

Lemma step_8_32_ok lax : step_ok enc8 enc32 8 lax (step_8_32 lax).
Proof. apply sem8_step_ok. intros; apply step_8_32_sem; assumption. Qed.
Lemma step_8_8_ok lax : step_ok enc8 enc8 8 lax (step_8_8 lax).
Proof. apply sem8_step_ok. intros; apply step_8_8_sem; assumption. Qed.
Lemma step_8_16_ok lax : step_ok enc8 enc16 8 lax (step_8_16 lax).
Proof. apply sem8_step_ok. intros; apply step_8_16_sem; assumption. Qed.

(* ------------------------------------------------------------------ *)
(* UTF-16 *)
Definition highb (c : Z) : bool := (0xD800 <=? c) && (c <=? 0xDBFF).
Definition lowb (c : Z) : bool := (0xDC00 <=? c) && (c <=? 0xDFFF).

Definition sem16 (lax : bool) (c : Z) (rest : list Z) : dec :=
  match rest with
  | c2 :: _ => if highb c && lowb c2 then DGood (0x10000 + (c - 0xD800) * 1024 + (c2 - 0xDC00)) 1
               else if is_surr c && negb lax then DBad 0 else DGood c 0
  | [] => if is_surr c && negb lax then DBad 0 else DGood c 0
  end.

Lemma enc16_shape lax cp : valid_cp lax cp ->
  (enc16 cp = [cp] /\ 0 <= cp < 0x10000) \/
  (exists c c2, enc16 cp = [c; c2] /\ highb c = true /\ lowb c2 = true /\
    cp = 0x10000 + (c - 0xD800) * 1024 + (c2 - 0xDC00)).
Proof.
  intros [Hr Hs]. destruct (Z_lt_le_dec cp 0x10000).
  - left. rewrite enc16_1 by lia. split; [reflexivity|lia].
  - right. exists (0xD800 + (cp - 0x10000) / 1024), (0xDC00 + (cp - 0x10000) mod 1024).
    rewrite enc16_2 by lia. unfold highb, lowb. repeat split; lia.
Qed.

Lemma enc16_pair c c2 : highb c = true -> lowb c2 = true ->
  enc16 (0x10000 + (c - 0xD800) * 1024 + (c2 - 0xDC00)) = [c; c2].
Proof. unfold highb, lowb; intros; bsimp. rewrite enc16_2 by lia. f_equal; [lia|f_equal; lia]. Qed.

Lemma sem16_step_ok dst_enc lax step :
  (forall c rest, units 16 (c :: rest) -> step c rest = conv dst_enc (sem16 lax c rest)) ->
  step_ok enc16 dst_enc 16 lax step.
Proof.
  intros HS c rest HU. rewrite HS by exact HU. apply units_cons in HU as [Hc HU].
  change (2 ^ 16) with 65536 in *.
  assert (forall k, (is_surr c && negb lax = true) ->
    (forall c2 r, rest = c2 :: r -> highb c && lowb c2 = false) ->
    k = 0%nat -> (k <= length rest)%nat /\ unconvertible enc16 lax (c :: rest) /\
    maximal_subpart enc16 lax (c :: firstn k rest) (c :: rest)) as HB.
  { intros k HS' HN ->. split; [lia|]. cbn [firstn]. apply andb_prop in HS' as [HS' HL].
    apply negb_true_iff in HL. subst lax.
    assert (unconvertible enc16 false (c :: rest)) as HUn.
    { intros cp HV HP. destruct (enc16_shape _ _ HV) as [[He Hr]|(d & d2 & He & Hd & Hd2 & _)];
      rewrite He in HP; apply prefix_cons in HP as [-> HP].
      - destruct HV as [_ [?|?]]; congruence.
      - destruct rest as [|e r]; [now apply prefix_nil_inv in HP|].
        apply prefix_cons in HP as [-> _]. specialize (HN _ _ eq_refl).
        rewrite Hd, Hd2 in HN. discriminate. }
    split; [exact HUn|]. split; [exists rest; reflexivity|]. split; [left; reflexivity|].
    intros w HP (cp & HV & HI). destruct w as [|w0 [|w1 w]]; cbn [length]; try lia.
    exfalso. apply (HUn cp HV).
    destruct (enc16_shape _ _ HV) as [[He Hr]|(d & d2 & He & Hd & Hd2 & _)]; rewrite He in *.
    - apply prefix_cons in HI as [_ HI]. now apply prefix_nil_inv in HI.
    - apply prefix_cons in HI as [-> HI]. apply prefix_cons in HI as [-> HI].
      destruct w; [exact HP|now apply prefix_nil_inv in HI]. }
  assert (forall cp', valid_cp lax cp' -> is_prefix (enc16 cp') (c :: rest) ->
    (length (enc16 cp') <= 1)%nat \/ exists c2 r, rest = c2 :: r /\ highb c && lowb c2 = true) as HL.
  { intros cp' HV HP. destruct (enc16_shape _ _ HV) as [[He Hr]|(d & d2 & He & Hd & Hd2 & _)];
      rewrite He in HP |- *; [left; cbn; lia|right].
    apply prefix_cons in HP as [-> HP]. destruct rest as [|e r]; [now apply prefix_nil_inv in HP|].
    apply prefix_cons in HP as [-> _]. exists e, r. rewrite Hd, Hd2; auto. }
  assert (forall l, is_surr c && negb lax = false -> l = rest ->
    (forall c2 r, rest = c2 :: r -> highb c && lowb c2 = false) ->
    exists cp, valid_cp lax cp /\ dst_enc c = dst_enc cp /\ c :: rest = enc16 cp ++ skipn 0 l /\
    (forall cp' : Z, valid_cp lax cp' -> is_prefix (enc16 cp') (c :: rest) ->
       (length (enc16 cp') <= length (enc16 cp))%nat)) as HG1.
  { intros l HS' -> HN. exists c. split; [split; [lia|]|].
    - destruct lax; [left; reflexivity|right]. now rewrite andb_true_r in HS'.
    - split; [reflexivity|]. rewrite enc16_1 by lia. split; [reflexivity|].
      intros cp' HV HP. destruct (HL cp' HV HP) as [|(c2 & r & Hr & Hh)]; [assumption|].
      rewrite (HN _ _ Hr) in Hh; discriminate. }
  unfold sem16. destruct rest as [|c2 r].
  { destruct (is_surr c && negb lax) eqn:E.
    - apply HB; auto. intros; discriminate.
    - apply (HG1 []); auto. intros; discriminate. }
  destruct (highb c && lowb c2) eqn:EP.
  { apply andb_prop in EP as [Eh El]. cbn [conv].
    exists (0x10000 + (c - 0xD800) * 1024 + (c2 - 0xDC00)).
    split; [unfold highb, lowb in *; bsimp; split; [lia|right; unfold is_surr; lia]|].
    split; [reflexivity|]. rewrite enc16_pair by assumption. split; [reflexivity|].
    intros cp' HV _. destruct (enc16_shape _ _ HV) as [[He Hr]|(d & d2 & He & _)]; rewrite He; cbn; lia. }
  destruct (is_surr c && negb lax) eqn:E.
  - apply HB; auto. intros ? ? [= <- <-]; exact EP.
  - apply (HG1 (c2 :: r)); auto. intros ? ? [= <- <-]; exact EP.
Qed.

Lemma high_surr c : highb c = true -> is_surr c = true.
Proof. unfold highb, is_surr; intros; bsimp; lia. Qed.

Ltac hl := rewrite ?is_surrogate_spec, ?is_high_spec, ?is_low_spec;
  repeat match goal with |- context [(0xD800 <=? ?c) && (?c <=? 0xDBFF)] => fold (highb c) end;
  repeat match goal with |- context [(0xDC00 <=? ?c) && (?c <=? 0xDFFF)] => fold (lowb c) end.

Lemma join_pair c c2 : highb c = true -> lowb c2 = true ->
  join_surrogates c c2 = 0x10000 + (c - 0xD800) * 1024 + (c2 - 0xDC00).
Proof. rewrite join_spec. unfold highb, lowb; intros; bsimp; lia. Qed.

Lemma pair_range c c2 : highb c = true -> lowb c2 = true ->
  0x10000 <= 0x10000 + (c - 0xD800) * 1024 + (c2 - 0xDC00) < 0x110000.
Proof. unfold highb, lowb; intros; bsimp; lia. Qed.

Lemma step_16_32_sem lax c rest : units 16 (c :: rest) ->
  step_16_32 lax c rest = conv enc32 (sem16 lax c rest).
Proof.
  intros HU. ub. change (2 ^ 16) with 65536 in *. unfold step_16_32, sem16. hl.
  destruct (is_surr c) eqn:ES.
  - destruct rest as [|c2 r]; [destruct lax; cbn; rewrite ?c32_id by lia; reflexivity|]. hl.
    destruct (highb c) eqn:Eh, (lowb c2) eqn:El; cbn [andb];
      [|destruct lax; cbn; rewrite ?c32_id by lia; reflexivity..].
    cbn [conv]. rewrite join_pair by assumption. pose proof (pair_range _ _ Eh El).
    rewrite c32_id by lia. reflexivity.
  - destruct (highb c) eqn:Eh; [apply high_surr in Eh; congruence|]. cbn [andb].
    rewrite c32_id by lia. destruct rest; reflexivity.
Qed.

Lemma step_16_16_sem lax c rest : units 16 (c :: rest) ->
  step_16_16 lax c rest = conv enc16 (sem16 lax c rest).
Proof.
  intros HU. ub. change (2 ^ 16) with 65536 in *. unfold step_16_16, sem16. hl.
  destruct (is_surr c) eqn:ES.
  - destruct rest as [|c2 r]; [destruct lax; cbn [conv andb negb]; rewrite ?c16_id, ?enc16_1 by lia; reflexivity|]. hl.
    destruct (highb c) eqn:Eh, (lowb c2) eqn:El; cbn [andb];
      [|destruct lax; cbn [negb conv]; rewrite ?c16_id, ?enc16_1 by lia; reflexivity..].
    cbn [conv]. rewrite enc16_pair by assumption. ub. rewrite !c16_id by lia. reflexivity.
  - destruct (highb c) eqn:Eh; [apply high_surr in Eh; congruence|]. cbn [andb].
    rewrite c16_id by lia. destruct rest; cbn [conv]; rewrite enc16_1 by lia; reflexivity.
Qed.

Lemma step_16_8_sem lax c rest : units 16 (c :: rest) ->
  step_16_8 lax c rest = conv enc8 (sem16 lax c rest).
Proof.
  intros HU. ub. change (2 ^ 16) with 65536 in *. unfold step_16_8, sem16. hl.
  destruct (is_surr c) eqn:ES.
  - assert (0xD800 <= c <= 0xDFFF) by (unfold is_surr in ES; bsimp; lia). ltf. cbn [negb].
    rewrite bytes3_spec by lia.
    destruct rest as [|c2 r]; [destruct lax; cbn [conv andb negb]; rewrite ?enc8_3 by lia; reflexivity|]. hl.
    destruct (highb c) eqn:Eh, (lowb c2) eqn:El; cbn [andb];
      [|destruct lax; cbn [negb conv]; rewrite ?enc8_3 by lia; reflexivity..].
    cbn [conv]. rewrite join_pair by assumption. pose proof (pair_range _ _ Eh El).
    rewrite bytes4_spec, enc8_4 by lia. reflexivity.
  - destruct (highb c) eqn:Eh; [apply high_surr in Eh; congruence|]. cbn [andb negb].
    assert ((match rest with [] => DGood c 0 | _ :: _ => DGood c 0 end) = DGood c 0) as ->
      by (destruct rest; reflexivity).
    cbn [conv]. bdestr; bsimp.
    + rewrite c8_id, enc8_1 by lia; reflexivity.
    + rewrite bytes2_spec, enc8_2 by lia; reflexivity.
    + rewrite bytes3_spec, enc8_3 by lia; reflexivity.
Qed.

Lemma step_16_32_ok lax : step_ok enc16 enc32 16 lax (step_16_32 lax).
Proof. apply sem16_step_ok. intros; apply step_16_32_sem; assumption. Qed.
Lemma step_16_16_ok lax : step_ok enc16 enc16 16 lax (step_16_16 lax).
Proof. apply sem16_step_ok. intros; apply step_16_16_sem; assumption. Qed.
Lemma step_16_8_ok lax : step_ok enc16 enc8 16 lax (step_16_8 lax).
Proof. apply sem16_step_ok. intros; apply step_16_8_sem; assumption. Qed.

(* ------------------------------------------------------------------ *)
(* UTF-32 *)
Definition valid32 (lax : bool) (c : Z) : bool := (c <? 0x110000) && (lax || negb (is_surr c)).
Definition sem32 (lax : bool) (c : Z) (_ : list Z) : dec :=
  if valid32 lax c then DGood c 0 else DBad 0.

Lemma valid32_spec lax c : 0 <= c -> valid32 lax c = true <-> valid_cp lax c.
Proof.
  intros Hc. unfold valid32, valid_cp. rewrite andb_true_iff, orb_true_iff, negb_true_iff, Z.ltb_lt.
  intuition lia.
Qed.

Lemma sem32_step_ok dst_enc lax step :
  (forall c rest, units 32 (c :: rest) -> step c rest = conv dst_enc (sem32 lax c rest)) ->
  step_ok enc32 dst_enc 32 lax step.
Proof.
  intros HS c rest HU. rewrite HS by exact HU. apply units_cons in HU as [Hc HU].
  unfold sem32. destruct (valid32 lax c) eqn:E; cbn [conv].
  - apply valid32_spec in E; [|lia]. exists c. split; [exact E|]. split; [reflexivity|].
    split; [reflexivity|]. intros; cbn; lia.
  - split; [lia|].
    assert (unconvertible enc32 lax (c :: rest)) as HUn.
    { intros cp HV HP. apply prefix_cons in HP as [-> _]. apply valid32_spec in HV; [congruence|lia]. }
    split; [exact HUn|]. split; [exists rest; reflexivity|]. split; [left; reflexivity|].
    intros w HP (cp & HV & HI). destruct w as [|w0 [|w1 w]]; cbn [length]; try lia.
    apply prefix_cons in HI as [_ HI]. now apply prefix_nil_inv in HI.
Qed.

Lemma surr_range c : is_surr c = true -> 0xD800 <= c <= 0xDFFF.
Proof. unfold is_surr; intros; bsimp; lia. Qed.

Lemma step_32_8_sem lax c rest : units 32 (c :: rest) ->
  step_32_8 lax c rest = conv enc8 (sem32 lax c rest).
Proof.
  intros HU. ub. unfold step_32_8, sem32, valid32. hl.
  destruct (is_surr c) eqn:ES.
  - apply surr_range in ES. ltf. destruct lax; cbn [orb negb conv]; [|reflexivity].
    rewrite bytes3_spec, enc8_3 by lia; reflexivity.
  - cbn [negb]. rewrite orb_true_r, andb_true_r.
    destruct (c <? 0x110000) eqn:E; bsimp; bdestr; bsimp; try lia; cbn [conv]; try reflexivity.
    + rewrite c8_id, enc8_1 by lia; reflexivity.
    + rewrite bytes2_spec, enc8_2 by lia; reflexivity.
    + rewrite bytes3_spec, enc8_3 by lia; reflexivity.
    + rewrite bytes4_spec, enc8_4 by lia; reflexivity.
Qed.

Lemma lor_D800 s : 0 <= s < 1024 -> Z.lor 0xD800 s = 0xD800 + s.
Proof. intros. change 0xD800 with (54 * 2 ^ 10) at 1. rewrite lor_mul by lia. lia. Qed.
Lemma lor_DC00 s : 0 <= s < 1024 -> Z.lor 0xDC00 s = 0xDC00 + s.
Proof. intros. change 0xDC00 with (55 * 2 ^ 10) at 1. rewrite lor_mul by lia. lia. Qed.

Lemma step_32_16_sem lax c rest : units 32 (c :: rest) ->
  step_32_16 lax c rest = conv enc16 (sem32 lax c rest).
Proof.
  intros HU. ub. unfold step_32_16, sem32, valid32. hl.
  destruct (is_surr c) eqn:ES.
  - apply surr_range in ES. ltf. destruct lax; cbn [orb negb conv]; [|reflexivity].
    rewrite c16_id, enc16_1 by lia; reflexivity.
  - cbn [negb]. rewrite orb_true_r, andb_true_r.
    destruct (c <? 0x110000) eqn:E; bsimp; bdestr; bsimp; try lia; cbn [conv]; try reflexivity.
    + rewrite c16_id, enc16_1 by lia; reflexivity.
    + rewrite land_3FF, shr by lia. change (2 ^ 10) with 1024.
      rewrite lor_D800, lor_DC00, !c16_id, enc16_2 by lia. reflexivity.
Qed.

Lemma step_32_32_sem lax c rest : units 32 (c :: rest) ->
  step_32_32 lax c rest = conv enc32 (sem32 lax c rest).
Proof.
  intros HU. ub. change (2 ^ 32) with 4294967296 in *. unfold step_32_32, sem32, valid32. hl.
  destruct (is_surr c), lax; cbn [orb negb andb]; rewrite ?orb_true_r, ?andb_true_r, ?andb_false_r, ?orb_false_r;
  bdestr; bsimp; try lia; cbn [conv]; try reflexivity; rewrite c32_id by lia; reflexivity.
Qed.

Lemma step_32_8_ok lax : step_ok enc32 enc8 32 lax (step_32_8 lax).
Proof. apply sem32_step_ok. intros; apply step_32_8_sem; assumption. Qed.
Lemma step_32_16_ok lax : step_ok enc32 enc16 32 lax (step_32_16 lax).
Proof. apply sem32_step_ok. intros; apply step_32_16_sem; assumption. Qed.
Lemma step_32_32_ok lax : step_ok enc32 enc32 32 lax (step_32_32 lax).
Proof. apply sem32_step_ok. intros; apply step_32_32_sem; assumption. Qed.

Lemma repl8_ok : repl8 = enc8 0xFFFD. Proof. reflexivity. Qed.
Lemma repl16_ok : repl16 = enc16 0xFFFD. Proof. reflexivity. Qed.
Lemma repl32_ok : repl32 = enc32 0xFFFD. Proof. reflexivity. Qed.
