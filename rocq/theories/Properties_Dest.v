(* Property theorems C08-C15 about destinations.
   [run ops s os = Some s'] : the history os of put / write / write_fill / direct buffer
   writes / flush executed without any out-of-bounds access; [ops_text os] is the text the
   user asked to write.  op_wf only requires direct writes of n <= 64 units to be preceded
   by ensure(n), the documented protocol. *)
From Verif Require Import Base DestModel DestProofs.

(* C08 cstr_destination.  Full claim: without the hypothesis no_overflow_when_bad. *)
Theorem C08_cstr_partial : forall buf os,
  (1 <= length buf)%nat -> Forall op_wf os -> no_overflow_when_bad (cstr_init buf) os ->
  exists s' buf' k tr,
    run cstr_ops (cstr_init buf) os = Some s' /\ cstr_finish s' = Some (buf', (true, k), tr) /\
    length buf' = length buf /\ (k < length buf')%nat /\ nth k buf' 1 = 0 /\
    is_prefix (firstn k buf') (ops_text os) /\ (tr = false -> firstn k buf' = ops_text os).
Proof.
  exact (fun buf os H1 H2 H3 =>
    match cstr_run 1 (length buf) os _ _ (cstr_init_R buf H1) H2 H3 with
    | ex_intro _ s' (conj E R) =>
        match cstr_finish_ok (length buf) s' _ H1 R with
        | ex_intro _ buf' (ex_intro _ k (ex_intro _ tr (conj F (conj L (conj K (conj N (conj P (conj W _)))))))) =>
            ex_intro _ s' (ex_intro _ buf' (ex_intro _ k (ex_intro _ tr
              (conj E (conj F (conj L (conj (eq_ind_r (fun x => (k < x)%nat) K L) (conj N (conj P W)))))))))
        end
    end).
Qed.
(* A text that fits is stored completely, whatever the way it is written
   (without explicit flush and with exact reservations). *)
Theorem C08_cstr_fits : forall buf os,
  (1 <= length buf)%nat -> Forall op_exact os -> (length (ops_text os) <= length buf - 1)%nat ->
  exists s' buf' k,
    run cstr_ops (cstr_init buf) os = Some s' /\ cstr_finish s' = Some (buf', (true, k), false) /\
    nth k buf' 1 = 0 /\ firstn k buf' = ops_text os.
Proof.
  intros buf os H1 H2 H3.
  destruct (cstr_run_fits 1 (length buf) os _ _ (cstr_init_R buf H1) eq_refl H2 H3) as (s' & E & G & R).
  destruct (cstr_finish_ok (length buf) s' _ H1 R) as (buf' & k & tr & F & L & K & N & P & W & T).
  rewrite G in T; cbn in T; subst tr. exists s', buf', k. auto.
Qed.
(* writing 20 units into a 10-unit buffer, then 65 more: finish() stores the
   terminator outside both buffers *)
Theorem C08_cstr_refuted : exists buf os s',
  (1 <= length buf)%nat /\ Forall op_wf os /\
  run cstr_ops (cstr_init buf) os = Some s' /\ cstr_finish s' = None.
Proof.
  exists (repeat 7 10), [OWrite (repeat 97 20); OWrite (repeat 98 65)].
  eexists; split; [cbn; lia|]. split; [repeat constructor|]. vm_compute; split; reflexivity.
Qed.
Example C08_ex : no_overflow_when_bad (cstr_init (repeat 7 10)) [OWrite (repeat 97 20); OFill 3 45; OPut 33]
  /\ option_map cstr_finish (run cstr_ops (cstr_init (repeat 7 10)) [OWrite (repeat 97 20); OFill 3 45; OPut 33])
     = Some (Some (repeat 97 9 ++ [0], (true, 9%nat), true)).
Proof.
  split; [|vm_compute; reflexivity].
  cbn [no_overflow_when_bad]; repeat split; auto.
Qed.
Print Assumptions C08_cstr_partial.
Print Assumptions C08_cstr_fits.
Print Assumptions C08_cstr_refuted.

(* C09 array_destination *)
Theorem C09_array_partial : forall buf os,
  Forall op_wf os -> no_overflow_when_bad (arr_init buf) os ->
  exists s' k tr,
    run cstr_ops (arr_init buf) os = Some s' /\ arr_finish s' = (Some (true, k), tr) /\
    (k <= length buf)%nat /\ length (c_buf s') = length buf /\
    is_prefix (firstn k (c_buf s')) (ops_text os) /\ (tr = false -> firstn k (c_buf s') = ops_text os).
Proof.
  intros buf os H2 H3.
  destruct (cstr_run 0 (length buf) os _ _ (arr_init_R buf) H2 H3) as (s' & E & R).
  destruct (arr_finish_ok (length buf) s' _ R) as (k & tr & F & K & L & P & W & _).
  exists s', k, tr. auto 10.
Qed.
Theorem C09_array_fits : forall buf os,
  Forall op_exact os -> (length (ops_text os) <= length buf)%nat ->
  exists s' k,
    run cstr_ops (arr_init buf) os = Some s' /\ arr_finish s' = (Some (true, k), false) /\
    firstn k (c_buf s') = ops_text os.
Proof.
  intros buf os H2 H3.
  destruct (cstr_run_fits 0 (length buf) os _ _ (arr_init_R buf) eq_refl H2) as (s' & E & G & R);
    [rewrite Nat.sub_0_r; exact H3|].
  destruct (arr_finish_ok (length buf) s' _ R) as (k & tr & F & K & L & P & W & T).
  rewrite G in T; cbn in T; subst tr. exists s', k. auto.
Qed.
(* the returned pointer is not in the array *)
Theorem C09_array_refuted : exists buf os s',
  Forall op_wf os /\ run cstr_ops (arr_init buf) os = Some s' /\ arr_finish s' = (Some (false, 64%nat), true).
Proof.
  exists (repeat 7 10), [OWrite (repeat 97 20); OWrite (repeat 98 65)].
  eexists; split; [repeat constructor|]. vm_compute; split; reflexivity.
Qed.
Example C09_ex : option_map arr_finish (run cstr_ops (arr_init (repeat 7 5)) [OWrite [97;98]; OPut 33])
     = Some (Some (true, 3%nat), false).
Proof. vm_compute; reflexivity. Qed.
Print Assumptions C09_array_partial.
Print Assumptions C09_array_fits.
Print Assumptions C09_array_refuted.

(* C10 strings *)
Theorem C10_string_appender : forall str0 os, Forall op_wf os ->
  exists s', run sapp_ops (sapp_init str0) os = Some s' /\ sapp_finish s' = str0 ++ ops_text os.
Proof.
  intros str0 os H. destruct (run_ok sapp_ops _ (sapp_laws str0) os (sapp_init str0) []) as (s' & E & R);
    [repeat split; cbn; lia|exact H|]. exists s'; split; [exact E|exact (sapp_finish_ok _ _ _ R)].
Qed.
Theorem C10_string_maker : forall os, Forall op_wf os ->
  exists s', run smak_ops smak_init os = Some s' /\ smak_finish s' = ops_text os.
Proof.
  intros os H. destruct (run_ok smak_ops _ smak_laws os smak_init []) as (s' & E & R);
    [repeat split; cbn; lia|exact H|]. exists s'; split; [exact E|exact (smak_finish_ok _ _ R)].
Qed.
Theorem C10_sized_string_maker : forall count os, Forall op_wf os ->
  exists s', run szmk_ops (szmk_init count) os = Some s' /\ szmk_finish s' = ops_text os.
Proof.
  intros count os H. destruct (run_ok szmk_ops _ szmk_laws os _ _ (szmk_init_R count) H) as (s' & E & R).
  exists s'; split; [exact E|exact (proj2 R)].
Qed.
Example C10_ex : Forall op_wf [OWrite (repeat 97 70); OReserve 3 [1;2]; OFill 100 5] /\
  option_map szmk_finish (run szmk_ops (szmk_init 2) [OWrite (repeat 97 70); OReserve 3 [1;2]; OFill 100 5])
  = Some (repeat 97 70 ++ [1;2] ++ repeat 5 100).
Proof. split; [repeat constructor; cbn; lia | vm_compute; reflexivity]. Qed.
Print Assumptions C10_string_appender.
Print Assumptions C10_string_maker.
Print Assumptions C10_sized_string_maker.

(* C11 FILE*.  oracle: how many units each successive fwrite accepts at most. *)
Theorem C11_cfile : forall cap oracle os, (64 <= cap)%nat -> Forall op_wf os ->
  exists s' file success, run cf_ops (fwr_init cap oracle) os = Some s' /\
    fwr_finish s' = (file, zlen file, success) /\ is_prefix file (ops_text os) /\
    (success = true <-> file = ops_text os).
Proof.
  intros cap oracle os Hc H.
  destruct (run_ok cf_ops _ cf_laws os _ _ (fwr_init_R cap oracle Hc) H) as (s' & E & R).
  destruct (fwr_finish_ok s' _ R) as (file & F & P & S). exists s', file, (snd (fwr_finish s')). auto.
Qed.
Example C11_ex : option_map fwr_finish (run cf_ops (fwr_init 64 [5%nat; 60%nat]) [OWrite [1;2;3]; OFill 100 7])
  = Some ([1;2;3;7;7], 5, false).
Proof. vm_compute; reflexivity. Qed.
Print Assumptions C11_cfile.

(* C12 streambuf.  Full claim as C11.  Everything of it but the prefix property holds on
   every device and history: the count reported is what the streambuf received, success is
   reported exactly when that is the whole text, and what was received is the text with at
   most one hole. *)
Theorem C12_streambuf_any : forall cap oracle os, (64 <= cap)%nat -> Forall op_wf os ->
  exists s' file success, run sb_ops (fwr_init cap oracle) os = Some s' /\
    fwr_finish s' = (file, zlen file, success) /\
    (success = true <-> file = ops_text os) /\
    exists a b c d, file = a ++ c /\ ops_text os = a ++ b ++ c ++ d.
Proof.
  intros cap oracle os Hc H.
  destruct (run_ok sb_ops _ sbuf_laws os _ _ (sbuf_weaken _ _ (fwr_init_R cap oracle Hc)) H) as (s' & E & R).
  destruct (sbuf_finish_ok s' _ R) as (file & F & P & S). exists s', file, (snd (fwr_finish s')). auto.
Qed.
(* the prefix property, unless a write() longer than the free space meets a device that
   takes only part of the buffered text and then accepts more ([no_gap]); false then *)
Theorem C12_streambuf_partial : forall cap oracle os, (64 <= cap)%nat -> Forall op_wf os ->
  no_gap (fwr_init cap oracle) os ->
  exists s' file success, run sb_ops (fwr_init cap oracle) os = Some s' /\
    fwr_finish s' = (file, zlen file, success) /\ is_prefix file (ops_text os) /\
    (success = true <-> file = ops_text os).
Proof.
  intros cap oracle os Hc H Hg.
  destruct (sb_run os _ _ (fwr_init_R cap oracle Hc) H Hg) as (s' & E & R).
  destruct (fwr_finish_ok s' _ R) as (file & F & P & S). exists s', file, (snd (fwr_finish s')). auto.
Qed.
Theorem C12_streambuf_refuted : exists os s' file n b,
  Forall op_wf os /\ run sb_ops (fwr_init 64 [1%nat]) os = Some s' /\ fwr_finish s' = (file, n, b) /\
  ~ is_prefix file (ops_text os).
Proof.
  exists [OPut 1; OPut 2; OWrite (repeat 3 70)]. do 4 eexists.
  split; [repeat constructor|]. split; [vm_compute; reflexivity|]. split; [vm_compute; reflexivity|].
  intros [r Hr]; vm_compute in Hr; discriminate.
Qed.
Example C12_ex : option_map fwr_finish (run sb_ops (fwr_init 64 [5%nat; 60%nat]) [OFill 100 7])
  = Some ([7;7;7;7;7], 5, false).
Proof. vm_compute; reflexivity. Qed.
(* a history with a short write() that leaves no hole: the device fails for good *)
Example C12_no_gap_ex : no_gap (fwr_init 64 [1%nat; 0%nat; 0%nat]) [OPut 1; OPut 2; OWrite (repeat 3 70)] /\
  option_map fwr_finish (run sb_ops (fwr_init 64 [1%nat; 0%nat; 0%nat]) [OPut 1; OPut 2; OWrite (repeat 3 70)])
   = Some ([1], 1, false).
Proof.
  split; [|vm_compute; reflexivity]. cbn [no_gap]. split; [exact I|]. intros s1 E1.
  vm_compute in E1. injection E1 as <-. split; [exact I|]. intros s2 E2. vm_compute in E2.
  injection E2 as <-. split; [|auto]. right; right; right; reflexivity.
Qed.
Print Assumptions C12_streambuf_any.
Print Assumptions C12_streambuf_partial.
Print Assumptions C12_streambuf_refuted.

(* C13 discarder *)
Theorem C13_discarder : forall os, Forall op_wf os ->
  exists s', run disc_ops disc_init os = Some s' /\ (dc_ptr s' <= 64)%nat /\ d_good disc_ops s' = false.
Proof.
  intros os H. destruct (run_ok disc_ops _ disc_laws os disc_init []) as (s' & E & R);
    [unfold disc_R; cbn; lia|exact H|]. exists s'; auto.
Qed.
Example C13_ex : option_map dc_ptr (run disc_ops disc_init [OFill 1000 5; OWrite (repeat 1 70); OReserve 5 [1;2]]) = Some 2%nat.
Proof. vm_compute; reflexivity. Qed.
Print Assumptions C13_discarder.

(* C14 (write_fill) and C15: for every destination obeying the contract.  R s t reads
   "s is a state in which t has been given so far"; [Some] = no out-of-buffer access. *)
Theorem C14_write_fill : forall S (ops : dest_ops S) R pre, dest_laws ops R pre ->
  forall s t n c, R s t ->
  exists s', write_fill ops s n c = Some s' /\ R s' (t ++ repeat c (Z.to_nat n)).
Proof. exact @write_fill_ok. Qed.
Theorem C15_put : forall S (ops : dest_ops S) R pre, dest_laws ops R pre ->
  forall s t c, R s t -> exists s', put ops s c = Some s' /\ R s' (t ++ [c]).
Proof. exact @put_ok. Qed.
Theorem C15_write : forall S (ops : dest_ops S) R, full_laws ops R ->
  forall s t u, R s t -> exists s', write ops s u = Some s' /\ R s' (t ++ u).
Proof. exact (fun S ops R L s t u H => write_ok ops R _ L s t u H (or_intror I)). Qed.
Theorem C15_default_do_write : forall S (ops : dest_ops S) R pre, dest_laws ops R pre ->
  forall fuel s t u, R s t -> (length u < fuel)%nat ->
  exists s', base_do_write ops fuel s u = Some s' /\ R s' (t ++ u).
Proof. exact @base_do_write_ok. Qed.
Theorem C15_interchar_copy : forall S (ops : dest_ops S) R pre, dest_laws ops R pre ->
  forall s t u, R s t ->
  exists s', interchar_copy ops (Datatypes.S (length u)) s u = Some s' /\ R s' (t ++ u).
Proof. exact @interchar_copy_ok. Qed.
Theorem C15_any_history : forall S (ops : dest_ops S) R, full_laws ops R ->
  forall os s t, R s t -> Forall op_wf os ->
  exists s', run ops s os = Some s' /\ R s' (t ++ ops_text os).
Proof. exact @run_ok. Qed.
(* the contract is met by the classes of the library *)
Example C15_ex : full_laws sapp_ops (sapp_R [104;105]) /\ full_laws smak_ops smak_R /\ full_laws szmk_ops szmk_R
  /\ full_laws cf_ops fwr_R /\ full_laws disc_ops disc_R
  /\ dest_laws cstr_ops (cstr_R 1 10) (fun s => c_good s = true) /\ sapp_R [104;105] (sapp_init [104;105]) [].
Proof.
  exact (conj (sapp_laws _) (conj smak_laws (conj szmk_laws (conj cf_laws (conj disc_laws
    (conj (cstr_laws 1 10) (conj eq_refl (conj (Nat.le_0_l 64) eq_refl)))))))).
Qed.
Print Assumptions C14_write_fill.
Print Assumptions C15_put.
Print Assumptions C15_write.
Print Assumptions C15_default_do_write.
Print Assumptions C15_interchar_copy.
Print Assumptions C15_any_history.
