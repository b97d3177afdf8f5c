(* Model of output buffers / destinations.
   include/strf/destination.hpp, include/strf/output_buffer_functions.hpp,
   include/strf/to_string.hpp, to_cfile.hpp, to_streambuf.hpp

   A destination class is a plain record of operations on a state type.
   [d_emit s u] models storing the units u at buffer_ptr() and advancing; it is
   [None] (undefined behaviour) when u does not fit in [buffer_ptr,buffer_end).
   [d_do_write] models the virtual do_write, [None] when it touches memory it
   must not. *)
From Verif Require Import Base.

Record dest_ops (S : Type) := {
  d_space : S -> nat;                         (* destination.hpp:96-106 buffer_space *)
  d_good : S -> bool;                         (* destination.hpp:107-110 *)
  d_emit : S -> list Z -> option S;           (* writes at buffer_ptr() + advance, 111-130 *)
  d_recycle : S -> S;                         (* 147 recycle (virtual) *)
  d_do_write : S -> list Z -> option S        (* 206 do_write (virtual) *)
}.
Arguments d_space {S}. Arguments d_good {S}. Arguments d_emit {S}.
Arguments d_recycle {S}. Arguments d_do_write {S}.

Section Generic.
Context {S : Type} (ops : dest_ops S).

(* destination.hpp:42-50 ensure (131-139 is the same without the first assertion), its
   assertions s <= min_sspace_after_recycle (44; 64 for destination, 280, 393-404) and
   buffer_ptr() + s <= buffer_end() (48) *)
Definition ensure (n : nat) (s : S) : option S :=
  if (64 <? n)%nat then None
  else
    let s := if (d_space ops s <? n)%nat then d_recycle ops s else s in
    if (d_space ops s <? n)%nat then None else Some s.
(* destination.hpp:51-54 flush of an output_buffer<T, log2 m> (and 140-144 for m = 1): recycle, with its
   assertion that there is room for at least m units afterwards *)
Definition flush_min (m : nat) (s : S) : option S :=
  let s := d_recycle ops s in
  if (d_space ops s <? m)%nat then None else Some s.
(* destination.hpp:51-54: that of a strf::destination, which is an output_buffer<CharT, 6> *)
Definition flush (s : S) : option S := flush_min 64 s.

(* destination.hpp:252-264 put *)
Definition put (s : S) (c : Z) : option S :=
  if (d_space ops s =? 0)%nat then do s1 <- flush_min 1 s ; d_emit ops s1 [c]
  else d_emit ops s [c].

(* destination.hpp:157-176 write *)
Definition write (s : S) (u : list Z) : option S :=
  if (0 <? length u)%nat then
    if (length u <=? d_space ops s)%nat then d_emit ops s u else d_do_write ops s u
  else Some s.

(* destination.hpp:220-252 output_buffer<T,0>::do_write (default implementation);
   the loop flushes at least once per 64 units, [fuel] bounds the iterations *)
Fixpoint base_do_write (fuel : nat) (s : S) (data : list Z) : option S :=
  match fuel with
  | O => None
  | Datatypes.S fuel' =>
      let sub := Nat.min (length data) (d_space ops s) in
      do s1 <- d_emit ops s (firstn sub data) ;
      let rest := skipn sub data in
      match rest with
      | [] => Some s1
      | _ => do s2 <- flush_min 1 s1 ;
             if d_good ops s2 then base_do_write fuel' s2 rest else Some s2
      end
  end.

(* output_buffer_functions.hpp:15-38 output_buffer_interchar_copy, SrcCharT <> DstCharT *)
Fixpoint interchar_copy (fuel : nat) (s : S) (str : list Z) : option S :=
  match str with
  | [] => Some s
  | _ =>
    match fuel with
    | O => None
    | Datatypes.S fuel' =>
        let space := d_space ops s in
        if (length str <=? space)%nat then d_emit ops s str
        else
          do s1 <- d_emit ops s (firstn space str) ;
          do s2 <- flush_min 1 s1 ;
          if d_good ops s2 then interchar_copy fuel' s2 (skipn space str) else Some s2
    end
  end.

(* output_buffer_functions.hpp:69-81: the while loop of write_fill_continuation *)
Fixpoint fill_loop (fuel : nat) (s : S) (count : nat) (ch : Z) : option S :=
  if d_good ops s then
    match fuel with
    | O => None
    | Datatypes.S fuel' =>
        let space := d_space ops s in
        if (count <=? space)%nat then d_emit ops s (repeat ch count)
        else do s1 <- d_emit ops s (repeat ch space) ;
             do s2 <- flush_min 1 s1 ;
             fill_loop fuel' s2 (count - space) ch
    end
  else Some s.

(* output_buffer_functions.hpp:59-82 *)
Definition write_fill_continuation (s : S) (count : nat) (ch : Z) : option S :=
  let space := d_space ops s in
  do s1 <- d_emit ops s (repeat ch space) ;
  do s2 <- flush_min 1 s1 ;
  fill_loop (Datatypes.S (count - space)) s2 (count - space) ch.

(* output_buffer_functions.hpp:84-96; count is a ptrdiff_t *)
Definition write_fill (s : S) (count : Z) (ch : Z) : option S :=
  if 0 <? count then
    if count <=? Z.of_nat (d_space ops s) then d_emit ops s (repeat ch (Z.to_nat count))
    else write_fill_continuation s (Z.to_nat count) ch
  else Some s.

(* utf.hpp:26-122 repeat_sequence (the three overloads, seq of 2, 3 or 4 units).
   count is a ptrdiff_t; [fuel] bounds the number of flushes. *)
Fixpoint repeat_sequence (fuel : nat) (s : S) (count : Z) (seq : list Z) : option S :=
  match fuel with
  | O => None
  | Datatypes.S fuel' =>
      let space := (Z.of_nat (d_space ops s)) / (Z.of_nat (length seq)) in
      let inner_count := if space <? count then space else count in
      do s1 <- d_emit ops s (concat (repeat seq (Z.to_nat inner_count))) ;
      if count <=? space then Some s1
      else
        do s2 <- flush_min 8 s1 ;
        if negb (d_good ops s2) then Some s2
        else repeat_sequence fuel' s2 (count - space) seq
  end.

(* the loop of single_byte_charset::encode_fill, single_byte_charsets.hpp:3134-3146 (m = 8, a transcode_dst is an
   output_buffer<CharT, 3>), and of fmt_char_printer::operator(), char.hpp:118-132 (m = 64): like write_fill's, but it
   does not look at good(): after a flush it goes on *)
Fixpoint fill_all_loop (m : nat) (fuel : nat) (s : S) (count : Z) (c : Z) : option S :=
  match fuel with
  | O => None
  | Datatypes.S fuel' =>
      let space := Z.of_nat (d_space ops s) in
      if count <=? space then d_emit ops s (repeat c (Z.to_nat count))
      else do s1 <- d_emit ops s (repeat c (Z.to_nat space)) ;
           do s2 <- flush_min m s1 ;
           fill_all_loop m fuel' s2 (count - space) c
  end.
(* a negative count: str_fill_n, of a negative count converted to size_t, and advance(count): undefined *)
Definition fill_all (m : nat) (s : S) (count : Z) (c : Z) : option S :=
  if count <? 0 then None else fill_all_loop m (Datatypes.S (Datatypes.S (Z.to_nat count))) s count c.

(* what users of a destination do.  OReserve n u: ensure(n), then write u directly
   in the buffer and advance (the pattern of every printer); it must be used with
   |u| <= n <= 64 *)
Inductive op :=
| OPut (c : Z) | OWrite (u : list Z) | OFill (n : Z) (c : Z)
| OReserve (n : nat) (u : list Z) | OFlush
| OSeqFill (n : Z) (seq : list Z)
| OFillAll (n : Z) (c : Z).

(* the calls of destination.hpp:131-176, 252-264, output_buffer_functions.hpp:84-96, utf.hpp:26-122,
   single_byte_charsets.hpp:3125-3147 *)
Definition run_op (s : S) (o : op) : option S :=
  match o with
  | OPut c => put s c
  | OWrite u => write s u
  | OFill n c => write_fill s n c
  | OReserve n u => do s1 <- ensure n s ; d_emit ops s1 u
  | OFlush => flush s
  | OSeqFill n seq => repeat_sequence (Datatypes.S (Datatypes.S (Z.to_nat n))) s n seq
  | OFillAll n c => fill_all 8 s n c
  end.
(* a history of such calls *)
Fixpoint run (s : S) (os : list op) : option S :=
  match os with [] => Some s | o :: os' => do s1 <- run_op s o ; run s1 os' end.
End Generic.

(* -------- memory -------- *)
(* overwrite buf[p, p+|u|) *)
Definition store (buf : list Z) (p : nat) (u : list Z) : list Z :=
  firstn p buf ++ u ++ skipn (p + length u) buf.

(* -------- basic_cstr_destination, destination.hpp:296-389 -------- *)
(* Pointers are (region, offset); region true = the user's buffer, false = the
   static garbage_buff of 64 units (destination.hpp:284-294), whose contents are
   not tracked. *)
Record cstr := {
  c_buf : list Z; c_region : bool; c_ptr : nat; c_end : nat; c_good : bool;
  c_it : option (bool * nat) }.
(* destination.hpp:280-281 *)
Definition garbage_size : nat := 64.
(* destination.hpp:305-329 constructors: buffer of n units, n > 0 *)
Definition cstr_init (buf : list Z) : cstr :=
  {| c_buf := buf; c_region := true; c_ptr := 0; c_end := length buf - 1;
     c_good := true; c_it := None |}.
(* a store at buffer_ptr() and advance, destination.hpp:111-130 *)
Definition cstr_emit (s : cstr) (u : list Z) : option cstr :=
  if (c_ptr s + length u <=? c_end s)%nat then
    if c_region s then
      if (c_ptr s + length u <=? length (c_buf s))%nat then
        Some {| c_buf := store (c_buf s) (c_ptr s) u; c_region := true;
                c_ptr := c_ptr s + length u; c_end := c_end s; c_good := c_good s; c_it := c_it s |}
      else None
    else
      if (c_ptr s + length u <=? garbage_size)%nat then
        Some {| c_buf := c_buf s; c_region := false;
                c_ptr := c_ptr s + length u; c_end := c_end s; c_good := c_good s; c_it := c_it s |}
      else None
  else None.
(* destination.hpp:339-347 *)
Definition cstr_recycle (s : cstr) : cstr :=
  if c_good s then
    {| c_buf := c_buf s; c_region := false; c_ptr := 0; c_end := garbage_size; c_good := false;
       c_it := Some (c_region s, c_ptr s) |}
  else
    {| c_buf := c_buf s; c_region := false; c_ptr := 0; c_end := c_end s; c_good := false;
       c_it := c_it s |}.
(* destination.hpp:373-388 *)
Definition cstr_do_write (s : cstr) (u : list Z) : option cstr :=
  let sub := (c_end s - c_ptr s)%nat in
  if (length u <? sub)%nat then None else
  do s1 <- cstr_emit s (firstn sub u) ;
  Some {| c_buf := c_buf s1; c_region := false; c_ptr := 0; c_end := garbage_size; c_good := false;
          c_it := Some (c_region s, c_end s) |}.
(* destination.hpp:355-368 : returns the buffer contents, the offset of the returned
   pointer in the user buffer and [truncated]; None = the store *it_ = 0 goes outside
   both buffers (or through nullptr) *)
Definition cstr_finish (s : cstr) : option (list Z * (bool * nat) * bool) :=
  let g := c_good s in
  let it := if g then Some (c_region s, c_ptr s) else c_it s in
  match it with
  | Some (true, k) =>
      if (k <? length (c_buf s))%nat then Some (store (c_buf s) k [0], (true, k), negb g) else None
  | Some (false, k) =>
      if (k <? garbage_size)%nat then Some (c_buf s, (false, k), negb g) else None
  | None => None
  end.
(* the virtual functions of basic_cstr_destination, destination.hpp:296-389 *)
Definition cstr_ops : dest_ops cstr :=
  {| d_space := fun s => (c_end s - c_ptr s)%nat; d_good := c_good; d_emit := cstr_emit;
     d_recycle := cstr_recycle; d_do_write := cstr_do_write |}.

(* -------- array_destination, destination.hpp:440-526 -------- *)
(* Same state; the differences are the constructor (454-478: the whole array is
   usable) and finish (499-504). recycle 483-491 and do_write 508-523 are as above. *)
Definition arr_init (buf : list Z) : cstr :=
  {| c_buf := buf; c_region := true; c_ptr := 0; c_end := length buf;
     c_good := true; c_it := None |}.
(* destination.hpp:499-504 *)
Definition arr_finish (s : cstr) : option (bool * nat) * bool :=
  (if c_good s then Some (c_region s, c_ptr s) else c_it s, negb (c_good s)).

(* -------- discarder, destination.hpp:541-568 -------- *)
Record disc := { dc_ptr : nat }.
(* destination.hpp:549-553 *)
Definition disc_init : disc := {| dc_ptr := 0 |}.
(* destination.hpp:541-568 *)
Definition disc_ops : dest_ops disc :=
  {| d_space := fun s => (garbage_size - dc_ptr s)%nat; d_good := fun _ => false;
     d_emit := fun s u => if (dc_ptr s + length u <=? garbage_size)%nat
                          then Some {| dc_ptr := dc_ptr s + length u |} else None;
     d_recycle := fun _ => {| dc_ptr := 0 |};
     d_do_write := fun _ _ => Some {| dc_ptr := 0 |} |}.

(* -------- basic_string_appender, to_string.hpp:18-94 -------- *)
(* [sa_buf] is the written part of buf_ (64 units), [sa_str] the target string.
   Exceptions of std::string are not modelled. *)
Definition min_buf : nat := 64.
(* the members of basic_string_appender, to_string.hpp:18-94 *)
Record sapp := { sa_str : list Z; sa_buf : list Z; sa_good : bool }.
(* the constructors, to_string.hpp:25-35 *)
Definition sapp_init (str : list Z) : sapp := {| sa_str := str; sa_buf := []; sa_good := true |}.
(* a store at buffer_ptr() and advance, destination.hpp:111-130 *)
Definition sapp_emit (s : sapp) (u : list Z) : option sapp :=
  if (length (sa_buf s) + length u <=? min_buf)%nat
  then Some {| sa_str := sa_str s; sa_buf := sa_buf s ++ u; sa_good := sa_good s |} else None.
(* to_string.hpp:57-66 *)
Definition sapp_recycle (s : sapp) : sapp :=
  if sa_good s then {| sa_str := sa_str s ++ sa_buf s; sa_buf := []; sa_good := true |}
  else {| sa_str := sa_str s; sa_buf := []; sa_good := false |}.
(* to_string.hpp:79-88 *)
Definition sapp_do_write (s : sapp) (u : list Z) : option sapp :=
  Some (if sa_good s then {| sa_str := sa_str s ++ sa_buf s ++ u; sa_buf := []; sa_good := true |}
        else {| sa_str := sa_str s; sa_buf := []; sa_good := false |}).
(* to_string.hpp:68-75 *)
Definition sapp_finish (s : sapp) : list Z :=
  if sa_good s then sa_str s ++ sa_buf s else sa_str s.
(* the virtual functions of basic_string_appender, to_string.hpp:57-88 *)
Definition sapp_ops : dest_ops sapp :=
  {| d_space := fun s => (min_buf - length (sa_buf s))%nat; d_good := sa_good; d_emit := sapp_emit;
     d_recycle := sapp_recycle; d_do_write := sapp_do_write |}.

(* -------- basic_string_maker, to_string.hpp:96-201 -------- *)
(* [sm_str]: None until string_initialized_ *)
Record smak := { sm_str : option (list Z); sm_buf : list Z; sm_good : bool }.
(* to_string.hpp:106-114 *)
Definition smak_init : smak := {| sm_str := None; sm_buf := []; sm_good := true |}.
(* a store at buffer_ptr() and advance, destination.hpp:111-130 *)
Definition smak_emit (s : smak) (u : list Z) : option smak :=
  if (length (sm_buf s) + length u <=? min_buf)%nat
  then Some {| sm_str := sm_str s; sm_buf := sm_buf s ++ u; sm_good := sm_good s |} else None.
(* to_string.hpp:161-176 *)
Definition smak_recycle (s : smak) : smak :=
  if sm_good s then
    {| sm_str := Some (match sm_str s with None => sm_buf s | Some x => x ++ sm_buf s end);
       sm_buf := []; sm_good := true |}
  else {| sm_str := sm_str s; sm_buf := []; sm_good := false |}.
(* to_string.hpp:178-200 *)
Definition smak_do_write (s : smak) (u : list Z) : option smak :=
  Some (if sm_good s then
    {| sm_str := Some (match sm_str s with
                       | None => ([] ++ sm_buf s) ++ u
                       | Some x => (x ++ sm_buf s) ++ u end);
       sm_buf := []; sm_good := true |}
  else s).
(* to_string.hpp:130-142 *)
Definition smak_finish (s : smak) : list Z :=
  if sm_good s then match sm_str s with None => sm_buf s | Some x => x ++ sm_buf s end else [].
(* the virtual functions of basic_string_maker, to_string.hpp:127-200 *)
Definition smak_ops : dest_ops smak :=
  {| d_space := fun s => (min_buf - length (sm_buf s))%nat; d_good := sm_good; d_emit := smak_emit;
     d_recycle := smak_recycle; d_do_write := smak_do_write |}.

(* -------- basic_sized_string_maker, to_string.hpp:203-250 -------- *)
Record szmk := { sz_str : list Z; sz_ptr : nat; sz_end : nat }.
(* to_string.hpp:210-216 *)
Definition szmk_init (count : nat) : szmk :=
  let c := if (count =? 0)%nat then 1%nat else count in
  {| sz_str := repeat 0 c; sz_ptr := 0; sz_end := c |}.
(* a store at buffer_ptr() and advance, destination.hpp:111-130 *)
Definition szmk_emit (s : szmk) (u : list Z) : option szmk :=
  if (sz_ptr s + length u <=? sz_end s)%nat then
    if (sz_ptr s + length u <=? length (sz_str s))%nat then
      Some {| sz_str := store (sz_str s) (sz_ptr s) u; sz_ptr := sz_ptr s + length u; sz_end := sz_end s |}
    else None
  else None.
(* to_string.hpp:226-234 *)
Definition szmk_recycle (s : szmk) : szmk :=
  let original_size := sz_ptr s in
  let append_size := Nat.max original_size min_buf in
  {| sz_str := sz_str s ++ repeat 0 append_size; sz_ptr := original_size;
     sz_end := original_size + append_size |}.
(* to_string.hpp:236-240; resize to a size not above the current one keeps a prefix *)
Definition szmk_finish (s : szmk) : list Z := firstn (sz_ptr s) (sz_str s).
(* to_string.hpp:226-234, without do_write *)
Definition szmk_ops0 : dest_ops szmk :=
  {| d_space := fun s => (sz_end s - sz_ptr s)%nat; d_good := fun _ => true; d_emit := szmk_emit;
     d_recycle := szmk_recycle; d_do_write := fun _ _ => None |}.
(* do_write is inherited: destination.hpp:220-252 *)
Definition szmk_ops : dest_ops szmk :=
  {| d_space := d_space szmk_ops0; d_good := d_good szmk_ops0; d_emit := d_emit szmk_ops0;
     d_recycle := d_recycle szmk_ops0;
     d_do_write := fun s u => base_do_write szmk_ops0 (S (length u)) s u |}.

(* -------- cfile_writer_base, to_cfile.hpp:70-150, and basic_streambuf_writer -------- *)
(* The device (FILE* / streambuf) is an oracle: the list of how many units each
   successive write call accepts at most; past its end everything is accepted.
   [fw_cap] is BuffSize >= 64. *)
Record fwr := { fw_file : list Z; fw_oracle : list nat; fw_buf : list Z; fw_cap : nat;
                fw_good : bool; fw_count : Z }.
(* to_cfile.hpp:36-38 fwrite / 52-61 fputwc loop / sputn: accepts a prefix *)
Definition dev_write (file : list Z) (oracle : list nat) (u : list Z) : list Z * list nat * nat :=
  match oracle with
  | [] => (file ++ u, [], length u)
  | k :: o => (file ++ firstn k u, o, Nat.min k (length u))
  end.
(* to_cfile.hpp:70-98; to_streambuf.hpp:19-28 *)
Definition fwr_init (cap : nat) (oracle : list nat) : fwr :=
  {| fw_file := []; fw_oracle := oracle; fw_buf := []; fw_cap := cap; fw_good := true; fw_count := 0 |}.
(* a store at buffer_ptr() and advance, destination.hpp:111-130 *)
Definition fwr_emit (s : fwr) (u : list Z) : option fwr :=
  if (length (fw_buf s) + length u <=? fw_cap s)%nat
  then Some {| fw_file := fw_file s; fw_oracle := fw_oracle s; fw_buf := fw_buf s ++ u;
               fw_cap := fw_cap s; fw_good := fw_good s; fw_count := fw_count s |} else None.
(* to_cfile.hpp:100-110; to_streambuf.hpp:50-58 *)
Definition fwr_recycle (s : fwr) : fwr :=
  if fw_good s then
    let '(file, o, inc) := dev_write (fw_file s) (fw_oracle s) (fw_buf s) in
    {| fw_file := file; fw_oracle := o; fw_buf := []; fw_cap := fw_cap s;
       fw_good := (inc =? length (fw_buf s))%nat; fw_count := fw_count s + Z.of_nat inc |}
  else {| fw_file := fw_file s; fw_oracle := fw_oracle s; fw_buf := []; fw_cap := fw_cap s;
          fw_good := false; fw_count := fw_count s |}.
(* to_cfile.hpp:137-149 *)
Definition cf_do_write (s : fwr) (u : list Z) : option fwr :=
  Some (if fw_good s then
    let '(file, o, inc) := dev_write (fw_file s) (fw_oracle s) (fw_buf s) in
    let '(file2, o2, inc2) :=
      if (inc =? length (fw_buf s))%nat then
        let '(f2, o2, i2) := dev_write file o u in (f2, o2, (inc + i2)%nat)
      else (file, o, inc) in
    {| fw_file := file2; fw_oracle := o2; fw_buf := []; fw_cap := fw_cap s;
       fw_good := (inc2 =? length (fw_buf s) + length u)%nat; fw_count := fw_count s + Z.of_nat inc2 |}
  else {| fw_file := fw_file s; fw_oracle := fw_oracle s; fw_buf := []; fw_cap := fw_cap s;
          fw_good := false; fw_count := fw_count s |}).
(* to_streambuf.hpp:81-93: both sputn calls are unconditional *)
Definition sb_do_write (s : fwr) (u : list Z) : option fwr :=
  Some (if fw_good s then
    let '(file, o, inc) := dev_write (fw_file s) (fw_oracle s) (fw_buf s) in
    let '(file2, o2, i2) := dev_write file o u in
    {| fw_file := file2; fw_oracle := o2; fw_buf := []; fw_cap := fw_cap s;
       fw_good := (inc + i2 =? length (fw_buf s) + length u)%nat;
       fw_count := fw_count s + Z.of_nat (inc + i2) |}
  else {| fw_file := fw_file s; fw_oracle := fw_oracle s; fw_buf := []; fw_cap := fw_cap s;
          fw_good := false; fw_count := fw_count s |}).
(* to_cfile.hpp:114-124; to_streambuf.hpp:65-77 : (final file contents, count, success) *)
Definition fwr_finish (s : fwr) : list Z * Z * bool :=
  if fw_good s then
    let '(file, o, inc) := dev_write (fw_file s) (fw_oracle s) (fw_buf s) in
    (file, fw_count s + Z.of_nat inc, (inc =? length (fw_buf s))%nat)
  else (fw_file s, fw_count s, false).
(* the virtual functions of cfile_writer_base, to_cfile.hpp:100-149 *)
Definition cf_ops : dest_ops fwr :=
  {| d_space := fun s => (fw_cap s - length (fw_buf s))%nat; d_good := fw_good; d_emit := fwr_emit;
     d_recycle := fwr_recycle; d_do_write := cf_do_write |}.
(* the virtual functions of basic_streambuf_writer, to_streambuf.hpp:50-93 *)
Definition sb_ops : dest_ops fwr :=
  {| d_space := fun s => (fw_cap s - length (fw_buf s))%nat; d_good := fw_good; d_emit := fwr_emit;
     d_recycle := fwr_recycle; d_do_write := sb_do_write |}.
