(* Lifetimes of destinations: finish() in the middle of a history, destructors, and exceptions
   thrown by the underlying string or stream buffer.
   include/strf/destination.hpp, to_string.hpp, to_cfile.hpp, to_streambuf.hpp *)
From Verif Require Import Base DestModel.

(* ---- what a user does with a destination object before its destructor runs ---- *)
Inductive event := EOp (o : op) | EFinish.

Section Life.
  Context {S A : Type} (ops : dest_ops S) (finish : S -> option (S * A)).
  (* the state left and what each call of finish returned *)
  Fixpoint life (s : S) (evs : list event) : option (S * list A) :=
    match evs with
    | [] => Some (s, [])
    | EOp o :: evs' => do s1 <- run_op ops s o ; life s1 evs'
    | EFinish :: evs' => do r <- finish s ; do r2 <- life (fst r) evs' ; Some (fst r2, snd r :: snd r2)
    end.
End Life.

(* cfile_writer_base::finish, to_cfile.hpp:114-124: the buffer pointer is left where it is *)
Definition cf_finish_st (s : fwr) : option (fwr * (Z * bool)) :=
  Some (if fw_good s then
    let '(file, o, inc) := dev_write (fw_file s) (fw_oracle s) (fw_buf s) in
    ({| fw_file := file; fw_oracle := o; fw_buf := fw_buf s; fw_cap := fw_cap s; fw_good := false;
        fw_count := fw_count s + Z.of_nat inc |},
     (fw_count s + Z.of_nat inc, (length (fw_buf s) =? inc)%nat))
  else (s, (fw_count s, false))).
(* basic_streambuf_writer::finish, to_streambuf.hpp:65-77: the buffer pointer is reset *)
Definition sb_finish_st (s : fwr) : option (fwr * (Z * bool)) :=
  Some (if fw_good s then
    let '(file, o, inc) := dev_write (fw_file s) (fw_oracle s) (fw_buf s) in
    ({| fw_file := file; fw_oracle := o; fw_buf := []; fw_cap := fw_cap s; fw_good := false;
        fw_count := fw_count s + Z.of_nat inc |},
     (fw_count s + Z.of_nat inc, (inc =? length (fw_buf s))%nat))
  else ({| fw_file := fw_file s; fw_oracle := fw_oracle s; fw_buf := []; fw_cap := fw_cap s; fw_good := false;
           fw_count := fw_count s |}, (fw_count s, false))).
(* destroy, to_cfile.hpp:128-133; ~basic_streambuf_writer, to_streambuf.hpp:37-48: the content of
   the file or stream afterwards *)
Definition fwr_destroy (s : fwr) : list Z :=
  if fw_good s then fst (fst (dev_write (fw_file s) (fw_oracle s) (fw_buf s))) else fw_file s.

(* basic_cstr_destination::finish, destination.hpp:355-368, with the state it leaves *)
Definition cstr_finish_st (s : cstr) : option (cstr * ((bool * nat) * bool)) :=
  let g := c_good s in
  let it := if g then Some (c_region s, c_ptr s) else c_it s in
  let left_st b := {| c_buf := b; c_region := false; c_ptr := 0; c_end := garbage_size; c_good := false; c_it := it |} in
  match it with
  | Some (true, k) =>
      if (k <? length (c_buf s))%nat then Some (left_st (store (c_buf s) k [0]), ((true, k), negb g)) else None
  | Some (false, k) =>
      if (k <? garbage_size)%nat then Some (left_st (c_buf s), ((false, k), negb g)) else None
  | None => None
  end.

(* basic_string_appender::finish, to_string.hpp:68-75, and its destructor, 41-55 *)
Definition sapp_finish_st (s : sapp) : option (sapp * unit) :=
  Some (if sa_good s then {| sa_str := sa_str s ++ sa_buf s; sa_buf := sa_buf s; sa_good := false |} else s, tt).
(* ~basic_string_appender, to_string.hpp:42-55 *)
Definition sapp_destroy (s : sapp) : list Z := if sa_good s then sa_str s ++ sa_buf s else sa_str s.
(* basic_string_maker::finish, 130-142; the string moved from is left empty *)
Definition smak_finish_st (s : smak) : option (smak * list Z) :=
  Some (if sm_good s then
          match sm_str s with
          | None => ({| sm_str := None; sm_buf := sm_buf s; sm_good := false |}, sm_buf s)
          | Some x => ({| sm_str := Some []; sm_buf := sm_buf s; sm_good := false |}, x ++ sm_buf s)
          end
        else (s, [])).

(* ---- exceptions ---- *)
(* An operation that throws is abandoned.  The generic code (put, write, write_fill, ...) acts on the
   destination through its primitives only; from the throw on, the primitives leave the destination
   as it is: what the abandoned code would store goes to an imaginary buffer of [room] units. *)
Inductive running (S : Type) := Going (s : S) | Thrown (s : S) (room : nat).
Arguments Going {S}. Arguments Thrown {S}.
(* the object as a handler of the exception finds it *)
Definition caught {S} (r : running S) : S := match r with Going s => s | Thrown s _ => s end.
(* has an exception left the operation *)
Definition threw {S} (r : running S) : bool := match r with Going _ => false | Thrown _ _ => true end.

(* the primitives; recycle and do_write say whether they threw *)
Record xops (S : Type) := mk_xops {
  x_space : S -> nat; x_good : S -> bool; x_emit : S -> list Z -> option S;
  x_recycle : S -> S * bool; x_do_write : S -> list Z -> option (S * bool) }.
Arguments x_space {S}. Arguments x_good {S}. Arguments x_emit {S}. Arguments x_recycle {S}. Arguments x_do_write {S}.
(* the operation ended, or threw *)
Definition after {S} (r : S * bool) : running S := if snd r then Thrown (fst r) 64 else Going (fst r).
(* the operations of a destination whose recycle and do_write may throw; after a throw nothing more is done *)
Definition exn_ops {S} (x : xops S) : dest_ops (running S) :=
  {| d_space := fun r => match r with Going s => x_space x s | Thrown _ n => n end;
     d_good := fun r => match r with Going s => x_good x s | Thrown _ _ => false end;
     d_emit := fun r u => match r with
       | Going s => option_map Going (x_emit x s u)
       | Thrown s n => if (length u <=? n)%nat then Some (Thrown s (n - length u)) else None
       end;
     d_recycle := fun r => match r with Going s => after (x_recycle x s) | Thrown s _ => Thrown s 64 end;
     d_do_write := fun r u => match r with
       | Going s => option_map after (x_do_write x s u)
       | Thrown s n => Some (Thrown s n)
       end |}.
(* the user catches the exceptions and goes on; the list says which operations threw *)
Fixpoint run_catching {S} (x : xops S) (s : S) (os : list op) : option (S * list bool) :=
  match os with
  | [] => Some (s, [])
  | o :: os' =>
      do r <- run_op (exn_ops x) (Going s) o ; do r2 <- run_catching x (caught r) os' ;
      Some (fst r2, threw r :: snd r2)
  end.

(* std::basic_string::append, the strong guarantee: it throws and does nothing, or appends.  The
   oracle says which of the successive calls throw. *)
Definition try_append (throws : list bool) (str u : list Z) : list Z * list bool * bool :=
  match throws with
  | true :: o => (str, o, true)
  | false :: o => (str ++ u, o, false)
  | [] => (str ++ u, [], false)
  end.
(* basic_string_appender: good() is false while append is called *)
Record sappx := mk_sappx { ax_s : sapp; ax_o : list bool }.
Definition ax_recycle (s : sappx) : sappx * bool :=                                      (* 57-66 *)
  let a := ax_s s in
  if sa_good a then
    let '(str, o, t) := try_append (ax_o s) (sa_str a) (sa_buf a) in
    (mk_sappx {| sa_str := str; sa_buf := []; sa_good := negb t |} o, t)
  else (mk_sappx {| sa_str := sa_str a; sa_buf := []; sa_good := false |} (ax_o s), false).
Definition ax_do_write (s : sappx) (u : list Z) : option (sappx * bool) :=               (* 79-88 *)
  let a := ax_s s in
  Some (if sa_good a then
    let '(str, o, t) := try_append (ax_o s) (sa_str a) (sa_buf a) in
    if t then (mk_sappx {| sa_str := str; sa_buf := []; sa_good := false |} o, true)
    else
      let '(str2, o2, t2) := try_append o str u in
      (mk_sappx {| sa_str := str2; sa_buf := []; sa_good := negb t2 |} o2, t2)
  else (mk_sappx {| sa_str := sa_str a; sa_buf := []; sa_good := false |} (ax_o s), false)).
(* basic_string_appender, to_string.hpp:18-95, with a string whose append may throw *)
Definition ax_ops : xops sappx :=
  mk_xops _ (fun s => (min_buf - length (sa_buf (ax_s s)))%nat) (fun s => sa_good (ax_s s))
    (fun s u => option_map (fun a => mk_sappx a (ax_o s)) (sapp_emit (ax_s s) u)) ax_recycle ax_do_write.
(* to_string.hpp:24-28 *)
Definition ax_init (str : list Z) (throws : list bool) : sappx := mk_sappx (sapp_init str) throws.
(* the destructor, 41-55: an exception is swallowed *)
Definition ax_destroy (s : sappx) : list Z :=
  let a := ax_s s in
  if sa_good a then fst (fst (try_append (ax_o s) (sa_str a) (sa_buf a))) else sa_str a.

(* basic_string_maker: the same oracle for the constructor string_type_{buf, count}, reserve and append *)
Record smakx := mk_smakx { mx_s : smak; mx_o : list bool }.
Definition mx_recycle (s : smakx) : smakx * bool :=                                      (* 161-176 *)
  let m := mx_s s in
  if sm_good m then
    match sm_str m with
    | None =>
        let '(str, o, t) := try_append (mx_o s) [] (sm_buf m) in
        (mk_smakx {| sm_str := if t then None else Some str; sm_buf := []; sm_good := negb t |} o, t)
    | Some x =>
        let '(str, o, t) := try_append (mx_o s) x (sm_buf m) in
        (mk_smakx {| sm_str := Some str; sm_buf := []; sm_good := negb t |} o, t)
    end
  else (mk_smakx {| sm_str := sm_str m; sm_buf := []; sm_good := false |} (mx_o s), false).
(* 178-200; string_initialized_ is set after the appends.  reserve is an append of nothing *)
Definition mx_do_write (s : smakx) (u : list Z) : option (smakx * bool) :=
  let m := mx_s s in
  Some (if sm_good m then
    match sm_str m with
    | None =>
        let failed o := (mk_smakx {| sm_str := None; sm_buf := []; sm_good := false |} o, true) in
        let '(s0, o0, t0) := try_append (mx_o s) [] [] in
        if t0 then failed o0 else
        let '(s1, o1, t1) := try_append o0 s0 (sm_buf m) in
        if t1 then failed o1 else
        let '(s2, o2, t2) := try_append o1 s1 u in
        if t2 then failed o2 else (mk_smakx {| sm_str := Some s2; sm_buf := []; sm_good := true |} o2, false)
    | Some x =>
        let failed str o := (mk_smakx {| sm_str := Some str; sm_buf := []; sm_good := false |} o, true) in
        let '(s1, o1, t1) := try_append (mx_o s) x (sm_buf m) in
        if t1 then failed s1 o1 else
        let '(s2, o2, t2) := try_append o1 s1 u in
        if t2 then failed s2 o2 else (mk_smakx {| sm_str := Some s2; sm_buf := []; sm_good := true |} o2, false)
    end
  else (s, false)).
(* basic_string_maker, to_string.hpp:100-200, with a string whose constructor and append may throw *)
Definition mx_ops : xops smakx :=
  mk_xops _ (fun s => (min_buf - length (sm_buf (mx_s s)))%nat) (fun s => sm_good (mx_s s))
    (fun s u => option_map (fun m => mk_smakx m (mx_o s)) (smak_emit (mx_s s) u)) mx_recycle mx_do_write.
(* to_string.hpp:106-115 *)
Definition mx_init (throws : list bool) : smakx := mk_smakx smak_init throws.
(* finish, 130-142: None when it throws *)
Definition mx_finish (s : smakx) : option (list Z) :=
  let m := mx_s s in
  if sm_good m then
    let '(str, _, t) := try_append (mx_o s) (match sm_str m with None => [] | Some x => x end) (sm_buf m) in
    if t then None else Some str
  else Some [].

(* basic_sized_string_maker::recycle, 226-234: when append throws the string, hence the buffer, is
   unchanged; do_write is the inherited one *)
Record szmkx := mk_szmkx { zx_s : szmk; zx_o : list bool }.
(* basic_sized_string_maker::recycle, to_string.hpp:226-234 *)
Definition zx_recycle (s : szmkx) : szmkx * bool :=
  match zx_o s with
  | true :: o => (mk_szmkx (zx_s s) o, true)
  | o => (mk_szmkx (szmk_recycle (zx_s s)) (tl o), false)
  end.
(* basic_sized_string_maker, to_string.hpp:207-260 *)
Definition zx_ops0 : xops szmkx :=
  mk_xops _ (fun s => (sz_end (zx_s s) - sz_ptr (zx_s s))%nat) (fun _ => true)
    (fun s u => option_map (fun a => mk_szmkx a (zx_o s)) (szmk_emit (zx_s s) u)) zx_recycle (fun _ _ => None).
(* the same with the inherited do_write (destination.hpp) *)
Definition zx_ops : xops szmkx :=
  mk_xops _ (x_space zx_ops0) (x_good zx_ops0) (x_emit zx_ops0) (x_recycle zx_ops0)
    (fun s u => option_map (fun r => (caught r, threw r))
                  (base_do_write (exn_ops zx_ops0) (S (length u)) (Going s) u)).
(* to_string.hpp:212-218 *)
Definition zx_init (count : nat) (throws : list bool) : szmkx := mk_szmkx (szmk_init count) throws.

(* basic_streambuf_writer: a sputn takes a prefix of what it is given and returns its length, or
   takes a prefix and throws *)
Record sbx := mk_sbx { bx_s : fwr; bx_o : list (nat * bool) }.
(* one call of basic_streambuf::sputn (to_streambuf.hpp:50-98) *)
Definition try_sputn (o : list (nat * bool)) (file u : list Z) : list Z * list (nat * bool) * nat * bool :=
  match o with
  | [] => (file ++ u, [], length u, false)
  | (k, t) :: o' => (file ++ firstn k u, o', Nat.min k (length u), t)
  end.
(* assignments to the members in to_streambuf.hpp:50-98 *)
Definition bx_set (s : sbx) (file : list Z) (good : bool) (count : Z) (o : list (nat * bool)) : sbx :=
  mk_sbx {| fw_file := file; fw_oracle := []; fw_buf := []; fw_cap := fw_cap (bx_s s);
            fw_good := good; fw_count := count |} o.
(* to_streambuf.hpp:50-58: when sputn throws, good() stays true *)
Definition bx_recycle (s : sbx) : sbx * bool :=
  let f := bx_s s in
  if fw_good f then
    let '(file, o, inc, t) := try_sputn (bx_o s) (fw_file f) (fw_buf f) in
    if t then (bx_set s file true (fw_count f) o, true)
    else (bx_set s file (inc =? length (fw_buf f))%nat (fw_count f + Z.of_nat inc) o, false)
  else (bx_set s (fw_file f) false (fw_count f) (bx_o s), false).
(* 81-93 *)
Definition bx_do_write (s : sbx) (u : list Z) : option (sbx * bool) :=
  let f := bx_s s in
  Some (if fw_good f then
    let '(file, o, inc, t) := try_sputn (bx_o s) (fw_file f) (fw_buf f) in
    if t then (bx_set s file false (fw_count f) o, true) else
    let '(file2, o2, inc2, t2) := try_sputn o file u in
    if t2 then (bx_set s file2 false (fw_count f) o2, true) else
    (bx_set s file2 (inc + inc2 =? length (fw_buf f) + length u)%nat (fw_count f + Z.of_nat (inc + inc2)) o2, false)
  else (bx_set s (fw_file f) false (fw_count f) (bx_o s), false)).
(* basic_streambuf_writer, to_streambuf.hpp:15-100 *)
Definition bx_ops : xops sbx :=
  mk_xops _ (fun s => (fw_cap (bx_s s) - length (fw_buf (bx_s s)))%nat) (fun s => fw_good (bx_s s))
    (fun s u => option_map (fun f => mk_sbx f (bx_o s)) (fwr_emit (bx_s s) u)) bx_recycle bx_do_write.
(* to_streambuf.hpp:19-28 *)
Definition bx_init (device : list (nat * bool)) : sbx := mk_sbx (fwr_init 64 []) device.
(* finish, 65-77: the stream, and the result unless sputn throws *)
Definition bx_finish (s : sbx) : list Z * option (Z * bool) :=
  let f := bx_s s in
  if fw_good f then
    let '(file, _, inc, t) := try_sputn (bx_o s) (fw_file f) (fw_buf f) in
    (file, if t then None else Some (fw_count f + Z.of_nat inc, (inc =? length (fw_buf f))%nat))
  else (fw_file f, Some (fw_count f, false)).
