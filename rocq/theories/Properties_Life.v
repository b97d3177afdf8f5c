(* C60 and C61: finish, destruction and exceptions *)
From Verif Require Import Base DestModel DestProofs LifeModel LifeProofs LifeCount.

(* C60.  A destination is used for os, then finish() is called, then anything (writes, further
   calls of finish()), then it is destroyed.  [fwr_destroy s]: the file after destruction. *)
Theorem C60_cfile_finished : forall cap oracle os evs, (64 <= cap)%nat -> Forall op_wf os -> Forall event_wf evs ->
  exists s file success later,
    life cf_ops cf_finish_st (fwr_init cap oracle) (map EOp os ++ EFinish :: evs)
      = Some (s, (zlen file, success) :: later) /\
    is_prefix file (ops_text os) /\ (success = true <-> file = ops_text os) /\
    Forall (fun r => r = (zlen file, false)) later /\ fwr_destroy s = file.
Proof. exact cf_lifetime. Qed.
(* destroyed without finish(): the file is what finish() would have left *)
Theorem C60_cfile_dropped : forall cap oracle os, (64 <= cap)%nat -> Forall op_wf os ->
  exists s, life cf_ops cf_finish_st (fwr_init cap oracle) (map EOp os) = Some (s, []) /\
    is_prefix (fwr_destroy s) (ops_text os) /\
    exists s' success, life cf_ops cf_finish_st (fwr_init cap oracle) (map EOp os ++ [EFinish])
                         = Some (s', [(zlen (fwr_destroy s), success)]) /\ fwr_destroy s' = fwr_destroy s.
Proof. exact cf_dropped. Qed.
Theorem C60_streambuf_finished : forall oracle os evs, Forall op_wf os -> Forall event_wf evs ->
  exists s file success later,
    life sb_ops sb_finish_st (fwr_init 64 oracle) (map EOp os ++ EFinish :: evs)
      = Some (s, (zlen file, success) :: later) /\
    subsequence file (ops_text os) /\ (success = true <-> file = ops_text os) /\
    Forall (fun r => r = (zlen file, false)) later /\ fwr_destroy s = file.
Proof. exact sb_lifetime. Qed.
Theorem C60_cstr_finished : forall buf os os', (1 <= length buf)%nat -> Forall op_wf os ->
  no_overflow_when_bad (cstr_init buf) os -> Forall op_wf os' ->
  exists s k tr, life cstr_ops cstr_finish_st (cstr_init buf) (map EOp os ++ EFinish :: map EOp os') = Some (s, [((true, k), tr)]) /\
    length (c_buf s) = length buf /\ nth k (c_buf s) 1 = 0 /\ is_prefix (firstn k (c_buf s)) (ops_text os) /\
    (tr = false -> firstn k (c_buf s) = ops_text os).
Proof. exact cstr_lifetime. Qed.
Theorem C60_appender_finished : forall str0 os evs, Forall op_wf os -> Forall event_wf evs ->
  exists s l, life sapp_ops sapp_finish_st (sapp_init str0) (map EOp os ++ EFinish :: evs) = Some (s, l) /\
    sapp_destroy s = str0 ++ ops_text os.
Proof. exact sapp_lifetime. Qed.
Theorem C60_appender_dropped : forall str0 os, Forall op_wf os ->
  exists s, life sapp_ops sapp_finish_st (sapp_init str0) (map EOp os) = Some (s, []) /\
    sapp_destroy s = str0 ++ ops_text os.
Proof. exact sapp_dropped. Qed.
Theorem C60_maker_finished : forall os evs, Forall op_wf os -> Forall event_wf evs ->
  exists s later, life smak_ops smak_finish_st smak_init (map EOp os ++ EFinish :: evs) = Some (s, ops_text os :: later) /\
    Forall (fun r => r = []) later.
Proof. exact smak_lifetime. Qed.
Example C60_ex :
  option_map (fun r => (fwr_destroy (fst r), snd r))
    (life cf_ops cf_finish_st (fwr_init 64 [100%nat]) [EOp (OWrite [1;2;3]); EFinish; EOp (OFill 200 9); EFinish])
  = Some ([1;2;3], [(3, true); (3, false)]).
Proof. vm_compute; reflexivity. Qed.
Example C60_cstr_ex :
  option_map (fun r => (c_buf (fst r), snd r))
    (life cstr_ops cstr_finish_st (cstr_init (repeat 7 5)) [EOp (OWrite [1;2;3]); EFinish; EOp (OFill 200 9)])
  = Some ([1;2;3;0;7], [((true, 3%nat), false)]).
Proof. vm_compute; reflexivity. Qed.
Print Assumptions C60_cfile_finished.
Print Assumptions C60_cfile_dropped.
Print Assumptions C60_streambuf_finished.
Print Assumptions C60_cstr_finished.
Print Assumptions C60_appender_finished.
Print Assumptions C60_appender_dropped.
Print Assumptions C60_maker_finished.

(* C61.  [throws] says which of the calls of std::string::append (reserve, constructor) throw; the
   user catches the exceptions and goes on.  Some = nothing outside the buffers is touched. *)
Theorem C61_appender : forall str0 throws os, Forall op_wf os ->
  exists s l, run_catching ax_ops (ax_init str0 throws) os = Some (s, l) /\ length l = length os /\
    is_prefix str0 (ax_destroy s) /\ is_prefix (ax_destroy s) (str0 ++ ops_text os) /\
    (~ In true throws -> ax_destroy s = str0 ++ ops_text os).
Proof. exact appender_exceptions. Qed.
(* all or nothing; None: finish() itself throws *)
Theorem C61_maker : forall throws os, Forall op_wf os ->
  exists s l, run_catching mx_ops (mx_init throws) os = Some (s, l) /\ length l = length os /\
    (mx_finish s = None \/ mx_finish s = Some [] \/ mx_finish s = Some (ops_text os)) /\
    (~ In true throws -> mx_finish s = Some (ops_text os)).
Proof. exact maker_exceptions. Qed.
Theorem C61_sized_maker : forall count throws os, Forall op_wf os ->
  exists s l, run_catching zx_ops (zx_init count throws) os = Some (s, l) /\ length l = length os /\
    subsequence (szmk_finish (zx_s s)) (ops_text os) /\
    (~ In true throws -> szmk_finish (zx_s s) = ops_text os).
Proof. exact sized_exceptions. Qed.
(* stream buffers: nothing is written twice or out of order; count and success are right when no
   sputn throws.  Missing: that success implies completeness, false when sputn throws in recycle(),
   which leaves the destination good. *)
Theorem C61_streambuf_partial : forall device os, Forall op_wf os ->
  exists s l, run_catching bx_ops (bx_init device) os = Some (s, l) /\ length l = length os /\
    subsequence (fst (bx_finish s)) (ops_text os) /\
    (forall n b, snd (bx_finish s) = Some (n, b) -> n <= zlen (fst (bx_finish s))) /\
    (Forall (fun d => snd d = false) device ->
       exists b, snd (bx_finish s) = Some (zlen (fst (bx_finish s)), b) /\
         (b = true <-> fst (bx_finish s) = ops_text os)).
Proof. exact stream_exceptions. Qed.
(* the first operation, which did not throw, gave 64 units; none of them is in the stream, the
   second one threw, the third one did not; finish() reports success *)
Theorem C61_streambuf_refuted : exists device os s,
  Forall op_wf os /\ run_catching bx_ops (bx_init device) os = Some (s, [false; true; false]) /\
  bx_finish s = ([3; 3], Some (2, true)) /\ ops_text os = repeat 1 64 ++ [2] ++ [3; 3].
Proof.
  exists [(0%nat, true)], [OFill 64 1; OPut 2; OWrite [3; 3]]. eexists. split; [repeat constructor|].
  split; [vm_compute; reflexivity|]. split; vm_compute; reflexivity.
Qed.
(* Each exception reaches the user exactly once: of the calls that were to throw (counted by
   [trues]), those not made yet and the operations that threw account for all.  [l]: which of the
   operations threw *)
Theorem C61_exceptions_reach :
  (forall str0 throws os s l, run_catching ax_ops (ax_init str0 throws) os = Some (s, l) ->
     (trues (ax_o s) + trues l = trues throws)%nat) /\
  (forall throws os s l, run_catching mx_ops (mx_init throws) os = Some (s, l) ->
     (trues (mx_o s) + trues l = trues throws)%nat) /\
  (forall count throws os s l, run_catching zx_ops (zx_init count throws) os = Some (s, l) ->
     (trues (zx_o s) + trues l = trues throws)%nat) /\
  (forall device os s l, run_catching bx_ops (bx_init device) os = Some (s, l) ->
     (trues (map snd (bx_o s)) + trues l = trues (map snd device))%nat).
Proof.
  repeat split; intros *; intros H.
  - exact (exn_run _ _ ax_counts _ _ _ _ H).
  - exact (exn_run _ _ mx_counts _ _ _ _ H).
  - exact (exn_run _ _ zx_counts _ _ _ _ H).
  - exact (exn_run _ _ bx_counts _ _ _ _ H).
Qed.
Example C61_ex :
  option_map (fun r => (ax_destroy (fst r), snd r))
    (run_catching ax_ops (ax_init [5] [false; true]) [OFill 64 1; OPut 2; OFill 64 3; OWrite [4]])
  = Some (5 :: repeat 1 64, [false; false; true; false]).
Proof. vm_compute; reflexivity. Qed.
Example C61_sized_ex :
  option_map (fun r => (szmk_finish (zx_s (fst r)), snd r))
    (run_catching zx_ops (zx_init 2 [true; false]) [OWrite [1; 1; 1]; OPut 2; OWrite [3; 3]])
  = Some ([1; 1; 2; 3; 3], [true; false; false]).
Proof. vm_compute; reflexivity. Qed.
Print Assumptions C61_exceptions_reach.
Print Assumptions C61_appender.
Print Assumptions C61_maker.
Print Assumptions C61_sized_maker.
Print Assumptions C61_streambuf_partial.
Print Assumptions C61_streambuf_refuted.

(* C08, C09: every history is free of faults before finish(), and the histories excluded from C08_cstr_partial
   and C09_array_partial are exactly those for which finish() faults, or returns a pointer outside the array *)
Theorem C08_cstr_iff : forall buf os, (1 <= length buf)%nat -> Forall op_wf os ->
  exists s', run cstr_ops (cstr_init buf) os = Some s' /\
    ((exists r, cstr_finish s' = Some r) <-> no_overflow_when_bad (cstr_init buf) os).
Proof. exact cstr_iff. Qed.
Theorem C09_array_iff : forall buf os, Forall op_wf os ->
  exists s', run cstr_ops (arr_init buf) os = Some s' /\
    ((exists k tr, arr_finish s' = (Some (true, k), tr)) <-> no_overflow_when_bad (arr_init buf) os).
Proof. exact arr_iff. Qed.
Print Assumptions C08_cstr_iff.
Print Assumptions C09_array_iff.
