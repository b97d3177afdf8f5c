(* Integers ask for no more room than they use. *)
From Verif Require Import Base DestModel DestProofs CharsetModel GroupModel DigitsModel IntSpec IntModel RoomProofs.

Ltac dobind H := match type of H with obind ?e _ = Some _ => let X := fresh "X" in let E := fresh "E" in destruct e as [X|] eqn:E; cbn [obind] in H; [|discriminate H] end.

Lemma tight_back m n u os : reserve_back m n u = Some os -> m <= n -> Forall tight os.
Proof.
  unfold reserve_back. intros H Hm. destruct (Z.eqb_spec (zlen u) n); [|discriminate]. injection H as <-. constructor; [|constructor]. cbn [tight]. unfold zlen in *. lia.
Qed.
Lemma tight_group encsep m grp ds r : m <= zlen encsep -> big_group encsep m grp ds = Some r -> Forall tight (fst r).
Proof.
  unfold big_group. intros Hm H. destruct (Z.leb_spec grp (zlen ds)); [|discriminate]. injection H as <-. cbn [fst]. constructor; [|constructor]. cbn [tight].
  rewrite app_length, firstn_length. unfold zlen in *. lia.
Qed.
Lemma tight_middle encsep m grp : m <= zlen encsep -> forall n ds r, big_middle n encsep m grp ds = Some r -> Forall tight (fst r).
Proof.
  intros Hm. induction n as [|n IH]; intros ds r H; cbn [big_middle] in H; [injection H as <-; constructor|].
  dobind H. dobind H. injection H as <-. cbn [fst]. apply Forall_app. split; [eapply tight_group; eassumption|eapply IH; eassumption].
Qed.
Lemma tight_low encsep m : m <= zlen encsep -> forall fuel low ds os, big_low fuel encsep m low ds = Some os -> Forall tight os.
Proof.
  intros Hm. induction fuel as [|fuel IH]; intros low ds os H; cbn [big_low] in H; destruct (rdg_empty low); try discriminate; try (injection H as <-; constructor).
  dobind H. dobind H. injection H as <-. apply Forall_app. split; [eapply tight_group; eassumption|eapply IH; eassumption].
Qed.
Lemma tight_big b low v g encsep m dc os : m <= zlen encsep -> write_big b low v g encsep m dc = Some os -> Forall tight os.
Proof.
  unfold write_big. intros Hm H. dobind H. cbv zeta in H. destruct (max_num_digits b S8 <? zlen X); [discriminate|]. dobind H.
  destruct ((dist_highest X0 <? 0) || (zlen X <? dist_highest X0)) eqn:EH; [discriminate|].
  assert (T : tight (OReserve (Z.to_nat (dist_highest X0)) (firstn (Z.to_nat (dist_highest X0)) X))) by (cbn [tight]; rewrite firstn_length; unfold zlen in *; lia).
  destruct (dist_middle X0 =? 0).
  - dobind H. injection H as <-. constructor; [exact T|]. eapply tight_low; [exact Hm|eassumption].
  - dobind H. dobind H. injection H as <-. constructor; [exact T|]. apply Forall_app. split; [eapply tight_middle; [exact Hm|eassumption]|eapply tight_low; [exact Hm|eassumption]].
Qed.
Lemma tight_puts u : Forall tight (map OPut u).
Proof. induction u; constructor; [exact I|assumption]. Qed.
Lemma tight_bin_loop v : forall fuel mask os, bin_loop fuel v mask = Some os -> Forall tight os.
Proof.
  induction fuel as [|fuel IH]; intros mask os H; cbn [bin_loop] in H; [discriminate|]. cbv zeta in H. destruct (Z.shiftr mask 1 =? 0).
  - injection H as <-. constructor; [exact I|constructor].
  - dobind H. injection H as <-. constructor; [exact I|]. eapply IH; eassumption.
Qed.
Lemma bits_run_length v : forall n mask, length (fst (bits_run n v mask)) = n.
Proof. induction n as [|n IH]; intros mask; [reflexivity|]. cbn [bits_run]. specialize (IH (Z.shiftr mask 1)). destruct (bits_run n v (Z.shiftr mask 1)). cbn [fst length] in *. lia. Qed.
Lemma tight_bin_group m encsep v mask grp : m <= zlen encsep -> Forall tight (fst (bin_group m encsep v mask grp)).
Proof. intros Hm. unfold bin_group. destruct (bits_run _ _ _). cbn [fst]. constructor; [cbn [tight]; unfold zlen in *; lia|apply tight_puts]. Qed.
Lemma tight_bin_middle m encsep v grp : m <= zlen encsep -> forall n mask, Forall tight (fst (bin_middle n m encsep v mask grp)).
Proof.
  intros Hm. induction n as [|n IH]; intros mask; cbn [bin_middle]; [constructor|]. pose proof (tight_bin_group m encsep v mask grp Hm) as T.
  destruct (bin_group m encsep v mask grp) as [o1 m1]. specialize (IH m1). destruct (bin_middle n m encsep v m1 grp). cbn [fst] in *. apply Forall_app. auto.
Qed.
Lemma tight_bin_low m encsep v : m <= zlen encsep -> forall fuel mask low os, bin_low fuel m encsep v mask low = Some os -> Forall tight os.
Proof.
  intros Hm. induction fuel as [|fuel IH]; intros mask low os H; cbn [bin_low] in H; destruct (rdg_empty low); try discriminate; try (injection H as <-; constructor).
  pose proof (tight_bin_group m encsep v mask (rdg_highest low) Hm) as T. destruct (bin_group m encsep v mask (rdg_highest low)) as [o1 m1].
  dobind H. injection H as <-. apply Forall_app. split; [exact T|eapply IH; eassumption].
Qed.
Lemma tight_bin_groups f e d encsep v dc os : f <= Z.max 0 (dist_highest d) -> e <= zlen encsep -> bin_groups f e d encsep v dc = Some os -> Forall tight os.
Proof.
  intros Hf He. unfold bin_groups. cbv zeta. set (mask := to_u 64 (Z.shiftl 1 (dc - 1))). clearbody mask.
  pose proof (bits_run_length v (Z.to_nat (dist_highest d)) mask) as HL.
  destruct (bits_run (Z.to_nat (dist_highest d)) v mask) as [u mask']. cbn [fst] in HL.
  assert (T : tight (OReserve (Z.to_nat f) u)) by (cbn [tight]; lia).
  destruct (dist_middle d =? 0).
  - intros H. dobind H. injection H as <-. constructor; [exact T|]. eapply tight_bin_low; eassumption.
  - pose proof (tight_bin_middle e encsep v (rdg_highest (dist_low d)) He (Z.to_nat (dist_middle d)) mask') as T2.
    destruct (bin_middle _ _ _ _ _ _) as [o2 mask2]. intros H. dobind H. injection H as <-. constructor; [exact T|]. apply Forall_app. split; [exact T2|]. eapply tight_bin_low; eassumption.
Qed.
Lemma tight_write b low v dc os : dig_write b low v dc = Some os -> Forall tight os.
Proof.
  unfold dig_write. assert (forall b, write_digits b low v dc = Some os -> Forall tight os) as G.
  { intros b'. unfold write_digits. intros H. dobind H. eapply tight_back; [exact H|lia]. }
  destruct b; try apply G. unfold write_bin. destruct (v <=? 1); [|apply tight_bin_loop]. intros [= <-]. constructor; [exact I|constructor].
Qed.
Lemma tight_write_little b low v g dc sc sep os : dig_write_little b low v g dc sc sep = Some os -> Forall tight os.
Proof.
  unfold dig_write_little. assert (forall b, write_little b low v g dc sc sep = Some os -> Forall tight os) as G.
  { intros b'. unfold write_little. intros H. dobind H. eapply tight_back; [exact H|lia]. }
  destruct b; try apply G. unfold write_little_bin. destruct (v <=? 1); [discriminate|]. intros H. dobind H. eapply tight_bin_groups; [| |exact H]; [lia|cbn; lia].
Qed.
Lemma tight_write_big b low v g encsep m dc os : m <= zlen encsep -> dig_write_big b low v g encsep m dc = Some os -> Forall tight os.
Proof.
  intros Hm. unfold dig_write_big. assert (forall b, write_big b low v g encsep m dc = Some os -> Forall tight os) as G by (intros b' H; eapply tight_big; eassumption).
  destruct b; try apply G. unfold write_big_bin. destruct (v <=? 1); [discriminate|]. intros H. dobind H. eapply tight_bin_groups; [| |exact H]; lia.
Qed.

Lemma tight_fill cs n c : charset_ok cs -> 0 <= c < 2 ^ 32 -> tight (cs_fill cs n c).
Proof. intros K Hc. pose proof (ok_fill_only cs K n c Hc). destruct (cs_fill cs n c); cbn [tight] in *; auto; contradiction. Qed.
Lemma tight_head cs lc b sg c ly : charset_ok cs -> 0 <= c < 2 ^ 32 -> Forall tight (print_head cs lc b sg c ly).
Proof.
  intros K Hc. unfold print_head. apply Forall_app. split; [destruct (0 <? ly_left ly); repeat constructor; apply tight_fill; assumption|].
  apply Forall_app. split; [|repeat constructor]. destruct (ly_has_prefix ly); [|constructor]. destruct b; repeat constructor.
Qed.
Lemma tight_tail cs c ly : charset_ok cs -> 0 <= c < 2 ^ 32 -> Forall tight (print_tail cs c ly).
Proof. intros K Hc. unfold print_tail. destruct (0 <? ly_right ly); repeat constructor. apply tight_fill; assumption. Qed.

Lemma tight_static F b pr pd sg sb al sgn s v p : charset_ok (if_cs F) -> match al with Some a => 0 <= al_fill a < 2 ^ 32 | None => True end ->
  static_print F b pr pd sg sb al sgn s v = Some p -> Forall tight (pr_ops p).
Proof.
  intros K Hf. unfold static_print. destruct (init_1 b sg sgn s v) as [[uv hp] sgc]. cbv zeta. destruct (prefix_of _ _ _ _ _) as [[hp' ps] pr']. intros H.
  dobind H. dobind H. injection H as <-. cbn [pr_ops].
  assert (0 <= match al with Some a => al_fill a | None => 32 end < 2 ^ 32) by (destruct al; [exact Hf|change (2 ^ 32) with 4294967296; lia]).
  apply Forall_app. split; [apply tight_head; assumption|]. apply Forall_app. split; [eapply tight_write; eassumption|apply tight_tail; assumption].
Qed.
Lemma tight_punct F b pr pd sg sb al g sep sgn s v p : charset_ok (if_cs F) -> 0 <= al_fill al < 2 ^ 32 -> 0 <= sep < 2 ^ 32 ->
  punct_print F b pr pd sg sb al g sep sgn s v = Some p -> Forall tight (pr_ops p).
Proof.
  intros K Hf Hs. unfold punct_print. destruct (init_1 b sg sgn s v) as [[uv hp] sgc]. cbv zeta. intros H. dobind H. revert H.
  set (dc := count_digits (if_clz F) b S8 uv) in *.
  assert (exists g' z, (if (0x80 <=? sep) && negb (X =? 0) then if cs_validate (if_cs F) sep =? -1 then (grouping_empty, 0) else (g, cs_validate (if_cs F) sep) else (g, 1)) = (g', z) /\ z <= zlen (cs_encode (if_cs F) sep)) as (g' & z & -> & Hz).
  { pose proof (ok_small _ K sep Hs). destruct ((0x80 <=? sep) && negb (X =? 0)); [|eexists _, _; split; [reflexivity|lia]].
    destruct (Z.eqb_spec (cs_validate (if_cs F) sep) (-1)); eexists _, _; (split; [reflexivity|]); [lia|]. destruct (ok_validate _ K sep Hs); lia. }
  destruct (prefix_of _ _ _ _ _) as [[hp' ps] pr']. intros H. dobind H. dobind H. injection H as <-. cbn [pr_ops].
  apply Forall_app. split; [apply tight_head; assumption|]. apply Forall_app. split; [|apply tight_tail; assumption].
  destruct (X =? 0); [eapply tight_write; eassumption|]. destruct (z =? 1); [eapply tight_write_little; eassumption|eapply tight_write_big; eassumption].
Qed.
Lemma tight_default clz sgn s v p : default_print clz sgn s v = Some p -> Forall tight (pr_ops p).
Proof.
  unfold default_print. cbv zeta. set (dc := count_digits clz B10 s (unsigned_abs sgn (sbits s) v)). clearbody dc. intros H. dobind H. destruct (Z.eqb_spec (zlen X) dc) as [E1|]; [|discriminate].
  injection H as <-. cbn [pr_ops]. constructor; [|constructor]. cbn [tight]. rewrite app_length. unfold zlen in E1. destruct (sgn && (v <? 0)); cbn [b2i length]; lia.
Qed.
Lemma tight_aligned_default clz cs al sgn s v p : charset_ok cs -> 0 <= al_fill al < 2 ^ 32 -> aligned_default_print clz cs al sgn s v = Some p -> Forall tight (pr_ops p).
Proof.
  intros K Hf. unfold aligned_default_print. cbv zeta. set (dc := count_digits clz B10 s (unsigned_abs sgn (sbits s) v)). clearbody dc. intros H. dobind H. destruct (Z.eqb_spec (zlen X) dc) as [E1|]; [|discriminate].
  injection H as <-. cbn [pr_ops]. apply Forall_app. split; [|constructor].
  - match goal with |- context [if ?c then _ else _] => destruct c end; [|constructor]. destruct (al_align al); [constructor|..]; repeat constructor; apply tight_fill; assumption.
  - cbn [tight]. rewrite app_length. unfold zlen in E1. destruct (sgn && (v <? 0)); cbn [b2i length]; lia.
  - match goal with |- Forall _ (if ?c then _ else _) => destruct c end; repeat constructor. apply tight_fill; assumption.
Qed.
Lemma tight_nopad clz lc b sg sb sgn s v p : nopad_print clz lc b sg sb sgn s v = Some p -> Forall tight (pr_ops p).
Proof.
  unfold nopad_print. cbv zeta. set (prefix := if sgn then if 0 <=? v then sign_char sg else 45 else 0). clearbody prefix.
  set (d10 := count_digits clz B10 s (unsigned_abs sgn (sbits s) v)). clearbody d10.
  assert (G : forall b pfx u dc lcx q, (b = B8 -> pfx = 0 \/ pfx = 1) -> (b = B16 -> pfx = 0 \/ pfx = 2) -> b = B8 \/ b = B16 ->
     (if zlen u =? dc then Some (mk_printed [OReserve (Z.to_nat (dc + pfx)) ((if pfx =? 0 then [] else match b with B8 => [48] | _ => [48; prefix_char B16 lcx] end) ++ u)] (dc + pfx) (dc + pfx)) else None) = Some q -> Forall tight (pr_ops q)).
  { intros b' pfx u dc lcx q H8 H16 HB H. destruct (Z.eqb_spec (zlen u) dc) as [E1|]; [|discriminate]. injection H as <-. cbn [pr_ops]. constructor; [|constructor]. cbn [tight].
    rewrite app_length. unfold zlen in E1. destruct HB as [-> | ->]; [destruct (H8 eq_refl) as [-> | ->]|destruct (H16 eq_refl) as [-> | ->]]; cbn [Z.eqb length Pos.eqb]; lia. }
  destruct b.
  - set (dc := count_digits clz B2 s (to_u (sbits s) v)). clearbody dc. intros H. dobind H. injection H as <-. cbn [pr_ops]. apply Forall_app. split; [|eapply (tight_write B2); eassumption].
    destruct (_ =? _); repeat constructor.
  - set (dc := count_digits clz B8 s (to_u (sbits s) v)). clearbody dc. intros H. dobind H. refine (G B8 _ X dc lc p _ _ _ H); auto; try discriminate. intros _. destruct (sb && negb (v =? 0)); auto.
  - intros H. dobind H. destruct (Z.eqb_spec (zlen X) d10) as [E1|]; [|discriminate]. injection H as <-. cbn [pr_ops]. constructor; [|constructor]. cbn [tight]. rewrite app_length. unfold zlen in E1.
    destruct (Z.eqb_spec prefix 0) as [->|Hp]; cbn [length].
    + rewrite Z.add_0_r. destruct (Z.eqb_spec d10 0); cbn [negb b2i]; lia.
    + destruct (d10 + prefix =? 0); cbn [negb b2i]; lia.
  - set (dc := count_digits clz B16 s (to_u (sbits s) v)). clearbody dc. intros H. dobind H. refine (G B16 _ X dc lc p _ _ _ H); auto; try discriminate. intros _. destruct sb; auto.
Qed.
Theorem tight_int F f al sgn s v p : charset_ok (if_cs F) -> match al with Some a => 0 <= al_fill a < 2 ^ 32 | None => True end -> (forall b, 0 <= if_sep F b < 2 ^ 32) ->
  int_print F f al sgn s v = Some p -> Forall tight (pr_ops p).
Proof.
  intros K Hf Hs. assert (Hd : 0 <= al_fill (match al with Some a => a | None => default_align end) < 2 ^ 32) by (destruct al; [exact Hf|cbn; lia]).
  destruct f as [|b sg sb|b pu pr pd sg sb|n pr pd sg sb pu]; cbn [int_print].
  - destruct al; [apply tight_aligned_default; assumption|apply tight_default].
  - destruct al; [apply tight_static; assumption|apply tight_nopad].
  - destruct pu; [apply tight_punct; auto|apply tight_static; assumption].
  - apply tight_punct; auto. destruct pu; [apply Hs|lia].
Qed.
