(* Specification of a transcoding operation as a sequence of steps, independent of any
   particular encoding.  A step takes some source units to some destination units, may be
   reported to the error notifier, and may stop the operation. *)
From Verif Require Import Base.

(* transcode_stop_reason: include/strf/detail/facets/charset.hpp:206-216 *)
Inductive reason := RCompleted | RInsufficient | RInvalid | RUnsupported.
(* what the error notifier is told: invalid_sequence(.., src, len): the source from the
   sequence on and its length; unsupported_codepoint(.., codepoint) *)
Inductive note := NoteInvalid (src : list Z) (len : Z) | NoteUnsupported (cp : Z).
(* transcode_result: where the source was left, what was written, why it stopped *)
Record tr_result := mk_tr { r_rest : list Z; r_out : list Z; r_reason : reason; r_notes : list note }.
(* transcode_size_result *)
Record sz_res := mk_szr { z_size : Z; z_rest : list Z; z_reason : reason }.

Inductive report := NoReport | ReportInvalid | ReportUnsupported (cp : Z).
Record step := mk_step {
  st_src : list Z;              (* the source units it covers *)
  st_out : list Z;              (* what it becomes *)
  st_report : report;
  st_stop : option reason       (* the operation stops here, because of the flags *)
}.
Definition srcs (l : list step) : list Z := flat_map st_src l.
Definition outs (l : list step) : list Z := flat_map st_out l.
Definition note_of (s : step) (more : list step) : list note :=
  match st_report s with
  | NoReport => []
  | ReportInvalid => [NoteInvalid (st_src s ++ srcs more) (zlen (st_src s))]
  | ReportUnsupported cp => [NoteUnsupported cp]
  end.
(* Steps are carried out one by one until one has to stop or does not fit. *)
Fixpoint run_steps (l : list step) (space : Z) : tr_result :=
  match l with
  | [] => mk_tr [] [] RCompleted []
  | s :: more =>
      match st_stop s with
      | Some why => mk_tr (srcs l) [] why (note_of s more)
      | None =>
          if zlen (st_out s) <=? space then
            let r := run_steps more (space - zlen (st_out s)) in
            mk_tr (r_rest r) (st_out s ++ r_out r) (r_reason r) (note_of s more ++ r_notes r)
          else mk_tr (srcs l) [] RInsufficient (note_of s more)
      end
  end.
Definition size_of_result (r : tr_result) : sz_res := mk_szr (zlen (r_out r)) (r_rest r) (r_reason r).
