(* Tr-strings: include/strf/detail/tr_printer.hpp, include/strf/detail/printable_types/tr_string.hpp,
   include/strf/detail/reserve_policies.hpp:235-420.  Code units are compared as unsigned numbers. *)
From Verif Require Import Base WidthModel DestModel UtfForms SbcsModel CsetModel WCalcModel PrintModel StringModel ToModel RangeModel.

(* read_uint, tr_printer.hpp:49-69: the value and the rest; ptrdiff_t arithmetic *)
Fixpoint read_digits (limit value : Z) (it : list Z) : option (Z * list Z) :=
  match it with
  | [] => Some (value, [])
  | ch :: it' =>
      if (ch <? 48) || (57 <? ch) then Some (value, it)
      else
        do v10 <- chk_i 64 (value * 10) ; do v <- chk_i 64 (v10 + (ch - 48)) ;
        if limit <=? v then do x <- chk_i 64 (limit + 1) ; Some (x, it)
        else read_digits limit v it'
  end.
(* tr_printer.hpp:51-70 *)
Definition read_uint (it : list Z) (limit : Z) : option (Z * list Z) :=
  match it with [] => None | ch :: it' => read_digits limit (ch - 48) it' end.

(* str_find(it, end - it, c): what precedes the first c and what follows it *)
Fixpoint str_find (c : Z) (it : list Z) : option (list Z * list Z) :=
  match it with
  | [] => None
  | x :: it' => if x =? c then Some ([], it') else do r <- str_find c it' ; Some (x :: fst r, snd r)
  end.

(* write_replacement_char, utf.hpp:2310-2320, 2935-2941, 3040-3046; single_byte_charsets.hpp:2926-2930;
   replacement_char_size, utf.hpp:926, 1073, 1244; single_byte_charsets.hpp:2923 *)
Definition replacement_op (b : cset) : op :=
  match b with
  | Utf U8 => OReserve 3 [0xEF; 0xBF; 0xBD]
  | Utf _ => OReserve 1 [0xFFFD]
  | Sb _ _ => sb_write_replacement
  end.
(* charset.replacement_char_size() (utf.hpp, single_byte_charsets.hpp:2923) *)
Definition replacement_size (b : cset) : Z := match b with Utf U8 => 3 | _ => 1 end.

(* tr_string_write, tr_printer.hpp:397-475.  [after]: at the label after_the_opening_brace;
   [pos] = it - str; the result carries the positions given to err_handler.handle, in order *)
Section Write.
  Variables (b : cset) (printers : list printer).
  Let num_args : Z := zlen printers.
  (* tr_printer.hpp:403-490: print the argument, or the replacement character and a call of the error handler *)
  Definition tr_print_arg {S} (ops : dest_ops S) (idx pos : Z) (s : S) : option (S * list Z) :=
    if idx <? num_args then
      do pr <- nth_error printers (Z.to_nat idx) ; do s1 <- pr S ops s ; Some (s1, [])
    else do s1 <- run_op ops s (replacement_op b) ; Some (s1, [pos - 1]).
  (* the calls of the error handler of the rest come after these *)
  Definition with_errors {S} (errs : list Z) (r : option (S * list Z)) : option (S * list Z) :=
    do r <- r ; Some (fst r, errs ++ snd r).
  (* arg_idx is incremented only if it is valid *)
  Definition next_idx (idx : Z) : Z := if idx <? num_args then idx + 1 else idx.
  (* tr_printer.hpp:403-490 tr_string_write *)
  Fixpoint tr_write (fuel : nat) (after : bool) (pos : Z) (it : list Z) (idx : Z) {S} (ops : dest_ops S) (s : S) : option (S * list Z) :=
    match fuel with
    | O => None
    | Datatypes.S fuel' =>
        if negb after then
          match it with
          | [] => Some (s, [])
          | _ :: _ =>
              match str_find 123 it with
              | None => do s1 <- write ops s it ; Some (s1, [])
              | Some (prev, rest) => do s1 <- write ops s prev ; tr_write fuel' true (pos + zlen prev + 1) rest idx ops s1
              end
          end
        else
          match it with
          | [] => tr_print_arg ops idx pos s
          | ch :: rest =>
              if ch =? 125 then
                do r <- tr_print_arg ops idx pos s ;
                with_errors (snd r) (tr_write fuel' false (pos + 1) rest (next_idx idx) ops (fst r))
              else if (48 <=? ch) && (ch <=? 57) then
                do v <- read_uint it num_args ;
                do r <- tr_print_arg ops (fst v) pos s ;
                match str_find 125 (snd v) with
                | None => Some r
                | Some (c, rest') =>
                    with_errors (snd r) (tr_write fuel' false (pos + (zlen it - zlen rest')) rest' idx ops (fst r))
                end
              else if ch =? 123 then
                match str_find 123 rest with
                | None => do s1 <- write ops s it ; Some (s1, [])
                | Some (prev, rest') => do s1 <- write ops s (ch :: prev) ; tr_write fuel' true (pos + 1 + zlen prev + 1) rest' idx ops s1
                end
              else
                do r <- (if negb (ch =? 45) then tr_print_arg ops idx pos s else Some (s, [])) ;
                let idx' := if negb (ch =? 45) then next_idx idx else idx in
                match str_find 125 rest with
                | None => Some r
                | Some (c, rest') => with_errors (snd r) (tr_write fuel' false (pos + 1 + zlen c + 1) rest' idx' ops (fst r))
                end
          end
    end.
  (* tr_printer.hpp:403-490 with the positions given to the error handler *)
  Definition p_tr_errors (str : list Z) {S} (ops : dest_ops S) (s : S) : option (S * list Z) :=
    tr_write (Datatypes.S (length str)) false 0 str 0 ops s.
  (* tr_string_printer::operator(), tr_printer.hpp:542-548, 580-590 *)
  Definition p_tr (str : list Z) : printer := fun S ops s => do r <- p_tr_errors str ops s ; Some (fst r).
End Write.

(* tr_string_size for premeasurements<yes, no>, 322-395; count is a ptrdiff_t *)
Section Size.
  Variables (sizes : list Z) (inv_arg_size : Z).
  Let num_args : Z := zlen sizes.
  (* tr_printer.hpp:321-401: the size of argument idx *)
  Definition size_arg (idx count : Z) : option Z :=
    if idx <? num_args then do x <- nth_error sizes (Z.to_nat idx) ; chk_i 64 (count + x)
    else chk_i 64 (count + inv_arg_size).
  (* tr_printer.hpp:321-401: arg_idx after a {} *)
  Definition size_next (idx : Z) : Z := if idx <? num_args then idx + 1 else idx.
  (* tr_printer.hpp:321-401 tr_string_size *)
  Fixpoint tr_size (fuel : nat) (after : bool) (it : list Z) (idx count : Z) : option Z :=
    match fuel with
    | O => None
    | Datatypes.S fuel' =>
        if negb after then
          match it with
          | [] => Some count
          | _ :: _ =>
              match str_find 123 it with
              | None => chk_i 64 (count + zlen it)
              | Some (prev, rest) => do c <- chk_i 64 (count + zlen prev) ; tr_size fuel' true rest idx c
              end
          end
        else
          match it with
          | [] => size_arg idx count
          | ch :: rest =>
              if ch =? 125 then
                do c <- size_arg idx count ; tr_size fuel' false rest (size_next idx) c
              else if (48 <=? ch) && (ch <=? 57) then
                do v <- read_uint it num_args ;
                do c <- size_arg (fst v) count ;
                match str_find 125 (snd v) with
                | None => Some c
                | Some (_, rest') => tr_size fuel' false rest' idx c
                end
              else if ch =? 123 then
                match str_find 123 rest with
                | None => chk_i 64 (count + zlen it)
                | Some (prev, rest') => do c <- chk_i 64 (count + zlen (ch :: prev)) ; tr_size fuel' true rest' idx c
                end
              else
                do c <- (if negb (ch =? 45) then size_arg idx count else Some count) ;
                let idx' := if negb (ch =? 45) then size_next idx else idx in
                match str_find 125 rest with
                | None => Some c
                | Some (_, rest') => tr_size fuel' false rest' idx' c
                end
          end
    end.
  (* tr_printer.hpp:321-401 *)
  Definition tr_string_size (str : list Z) : option Z := tr_size (Datatypes.S (length str)) false str 0 0.
End Size.

(* tr_do_premeasurements, 251-320, for the TrPre classes below: the state after account_arg or
   account_string and their result (true: stop) *)
Section Premeasure.
  Variables (T : Type) (account_arg : Z -> T -> option (T * bool)) (account_string : list Z -> T -> option (T * bool)) (num_args : Z).
  (* "if (pre.account_...()) return" *)
  Definition continue_if (r : option (T * bool)) (k : T -> option T) : option T :=
    do r <- r ; if snd r : bool then Some (fst r) else k (fst r).
  (* tr_printer.hpp:250-319 tr_do_premeasurements *)
  Fixpoint tr_premeasure (fuel : nat) (after : bool) (it : list Z) (idx : Z) (t : T) : option T :=
    match fuel with
    | O => None
    | Datatypes.S fuel' =>
        if negb after then
          match it with
          | [] => Some t
          | _ :: _ =>
              match str_find 123 it with
              | None => do r <- account_string it t ; Some (fst r)
              | Some (prev, rest) => continue_if (account_string prev t) (fun t1 => tr_premeasure fuel' true rest idx t1)
              end
          end
        else
          match it with
          | [] => do r <- account_arg idx t ; Some (fst r)
          | ch :: rest =>
              if ch =? 125 then
                continue_if (account_arg idx t) (fun t1 => tr_premeasure fuel' false rest (idx + 1) t1)
              else if (48 <=? ch) && (ch <=? 57) then
                do v <- read_uint it num_args ;
                continue_if (account_arg (fst v) t) (fun t1 =>
                  match str_find 125 (snd v) with
                  | None => Some t1
                  | Some (_, rest') => tr_premeasure fuel' false rest' idx t1
                  end)
              else if ch =? 123 then
                match str_find 123 rest with
                | None => do r <- account_string it t ; Some (fst r)
                | Some (prev, rest') => continue_if (account_string (ch :: prev) t) (fun t1 => tr_premeasure fuel' true rest' idx t1)
                end
              else
                continue_if (if negb (ch =? 45) then account_arg idx t else Some (t, false)) (fun t1 =>
                  let idx' := if negb (ch =? 45) then idx + 1 else idx in
                  match str_find 125 rest with
                  | None => Some t1
                  | Some (_, rest') => tr_premeasure fuel' false rest' idx' t1
                  end)
          end
    end.
End Premeasure.

(* tr_pre_size, 88-129 *)
Definition ps_arg (sizes : list Z) (rsize : Z) (idx size : Z) : option (Z * bool) :=
  if idx <? zlen sizes then do x <- nth_error sizes (Z.to_nat idx) ; do s <- chk_i 64 (size + x) ; Some (s, false)
  else do s <- chk_i 64 (size + rsize) ; Some (s, false).
(* tr_pre_size::account_string, tr_printer.hpp:124-128 *)
Definition ps_string (str : list Z) (size : Z) : option (Z * bool) := do s <- chk_i 64 (size + zlen str) ; Some (s, false).
(* tr_pre_width, 131-184 *)
Definition pw_arg (widths : list Z) (limit : Z) (idx width : Z) : option (Z * bool) :=
  if width <? limit then
    do x <- (if idx <? zlen widths then nth_error widths (Z.to_nat idx) else Some 65536) ;
    do w <- w_add width x ; Some (w, limit <=? w)
  else Some (width, false).
(* tr_pre_width::account_string, tr_printer.hpp:169-176 *)
Definition pw_string (wc : wcalc) (b : cset) (limit : Z) (str : list Z) (width : Z) : option (Z * bool) :=
  if width <? limit then
    do rem <- w_sub limit width ; do x <- wc_str_width wc b rem str ;
    do w <- w_add width x ; Some (w, limit <=? w)
  else Some (width, false).
(* tr_pre_size_and_width, 188-246 *)
Definition psw_arg (sizes widths : list Z) (rsize : Z) (idx : Z) (t : Z * Z) : option (Z * Z * bool) :=
  if idx <? zlen sizes then
    do x <- nth_error sizes (Z.to_nat idx) ; do s <- chk_i 64 (fst t + x) ;
    do y <- nth_error widths (Z.to_nat idx) ; do w <- w_add (snd t) y ; Some (s, w, false)
  else do s <- chk_i 64 (fst t + rsize) ; do w <- w_add (snd t) 65536 ; Some (s, w, false).
(* tr_pre_size_and_width::account_string, tr_printer.hpp:229-235 *)
Definition psw_string (wc : wcalc) (b : cset) (limit : Z) (str : list Z) (t : Z * Z) : option (Z * Z * bool) :=
  do s <- chk_i 64 (fst t + zlen str) ;
  do rem <- w_sub limit (snd t) ; do x <- wc_str_width wc b rem str ;
  do w <- w_add (snd t) x ; Some (s, w, false).

(* each printer with its own premeasurements: printers_tuple.hpp:148-160, pre_arr *)
Fixpoint make_each (args : list arg) (p : pre) : option (list pre * list printer) :=
  match args with
  | [] => Some ([], [])
  | a :: args' => do r <- a p ; do r2 <- make_each args' p ; Some (fst r :: fst r2, snd r :: snd r2)
  end.
(* Pre pre_arr[] = {}: the defaults, premeasurements.hpp:65-68, 143 *)
Definition fresh (p : pre) : pre :=
  mk_pre (option_map (fun _ => 0) (p_size p)) (option_map (fun _ => (u_max, 0)) (p_width p)).

(* printable_def<tr_string_arg>::make_printer, tr_string.hpp:232-351 *)
Definition tr_arg (wc : wcalc) (b : cset) (str : list Z) (args : list arg) : arg := fun p =>
  do m <- make_each args (fresh p) ;
  let sizes := map accumulated_ssize (fst m) in
  let widths := map accumulated_width (fst m) in
  let fuel := Datatypes.S (length str) in
  do p1 <- (match p_size p, p_width p with
            | Some _, Some _ =>
                do limit <- remaining_width p ;
                do t <- tr_premeasure _ (psw_arg sizes widths (replacement_size b)) (psw_string wc b limit) (zlen args) fuel false str 0 (0, 0) ;
                do p1 <- add_size (fst t) p ; add_width (snd t) p1
            | Some _, None =>
                do t <- tr_premeasure _ (ps_arg sizes (replacement_size b)) ps_string (zlen args) fuel false str 0 0 ;
                add_size t p
            | None, Some _ =>
                do limit <- remaining_width p ;
                do t <- tr_premeasure _ (pw_arg widths limit) (pw_string wc b limit) (zlen args) fuel false str 0 0 ;
                add_width t p
            | None, None => Some p
            end) ;
  Some (p1, p_tr b (snd m) str).

(* to_string.tr(str, args...), reserve_policies.hpp:235-420 *)
Definition print_tr (eol : bool) (b : cset) (str : list Z) (args : list arg) : printer := fun S ops s =>
  do m <- make_each args no_pre ; p_seq (p_tr b (snd m) str) (p_eol eol) S ops s.
(* reserve_policies.hpp:320-372: tr with reserve_calc *)
Definition tr_calc_and_print (eol : bool) (b : cset) (str : list Z) (args : list arg) : option (Z * printer) :=
  do m <- make_each args (mk_pre (Some 0) None) ;
  do size <- tr_string_size (map accumulated_ssize (fst m)) (replacement_size b) str ;
  do size1 <- chk_i 64 (size + (if eol then 1 else 0)) ;
  Some (to_u 64 size1, p_seq (p_tr b (snd m) str) (p_eol eol)).
(* to_string.tr(str, args...) *)
Definition to_string_tr (eol : bool) (b : cset) (str : list Z) (args : list arg) : option (list Z) :=
  do s <- print_tr eol b str args smak smak_ops smak_init ; Some (smak_finish s).
(* reserve_calc creates a destination_type, not a sized_destination_type (349, 362), so that it
   only compiles for creators where both are the same, as strf::append's *)
Definition append_tr (str0 : list Z) (eol : bool) (b : cset) (str : list Z) (args : list arg) : option (list Z) :=
  do s <- print_tr eol b str args sapp sapp_ops (sapp_init str0) ; Some (sapp_finish s).
(* append(str).reserve_calc().tr(...) *)
Definition append_tr_calc (str0 : list Z) (eol : bool) (b : cset) (str : list Z) (args : list arg) : option (list Z) :=
  do r <- tr_calc_and_print eol b str args ;
  do s <- snd r sapp sapp_ops (sapp_init str0) ; Some (sapp_finish s).
