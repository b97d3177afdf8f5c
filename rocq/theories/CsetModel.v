(* All the charsets of the library, and transcoding between any two of them:
   find_transcoder and strf::transcode, include/strf/detail/facets/charset.hpp:838-1030,
   1494-1660. *)
From Verif Require Import Base DestModel UtfSpec UtfModel UtfForms TransSpec SbcsTables SbcsModel PivotModel.

(* static_charset<CharT, id>: UTF-8, UTF-16, UTF-32, or the i-th single-byte charset *)
Inductive cset := Utf (f : form) | Sb (i : nat) (cs : sbcs).
(* the charsets of charset.hpp:128-158 (the ids); the others of the enumeration have no static_charset *)
Definition is_cset (c : cset) : Prop := match c with Utf _ => True | Sb i cs => nth_error all_sbcs i = Some cs end.
(* sizeof(CharT) of the charset's code units: the static_asserts of utf.hpp:238, 318, 388 ...; 8 for single_byte_charsets.hpp *)
Definition unit_bits (c : cset) : Z := match c with Utf f => bits_of f | Sb _ _ => 8 end.

(* the UTF functions' results, as results of the common type *)
Definition lift_reason (r : stop_reason) : reason :=
  match r with Completed => RCompleted | Insufficient => RInsufficient | InvalidSequence => RInvalid end.
(* the transcode_result of charset.hpp:213-219 *)
Definition lift (r : tc_result) : tr_result :=
  mk_tr (t_rest r) (t_out r) (lift_reason (t_reason r)) (map (fun n => NoteInvalid (fst n) (snd n)) (t_notes r)).
(* the transcode_size_result of charset.hpp:221-227 *)
Definition lift_size (z : sz_result) : sz_res := mk_szr (s_size z) (s_rest z) (lift_reason (s_reason z)).

(* charset.to_u32().transcode: utf.hpp:995, 2640, 2990; single_byte_charsets.hpp:3001 *)
Definition to_u32_of (c : cset) (fl : flags) (src : list Z) (space : Z) : option tr_result :=
  match c with
  | Utf f => option_map lift (transcode_of f U32 (f_lax fl) (f_stop_invalid fl) src space)
  | Sb _ cs => sb_to_u32 cs fl src space
  end.
(* charset.to_u32().unsafe_transcode *)
Definition to_u32_unsafe_of (c : cset) (fl : flags) (src : list Z) (space : Z) : option tr_result :=
  match c with
  | Utf f => option_map lift (unsafe_transcode_of f U32 (f_lax fl) src space)
  | Sb _ cs => sb_to_u32_unsafe cs src space
  end.
(* charset.from_u32().unsafe_transcode *)
Definition from_u32_unsafe_of (c : cset) (fl : flags) (src : list Z) (space : Z) : option tr_result :=
  match c with
  | Utf g => option_map lift (unsafe_transcode_of U32 g (f_lax fl) src space)
  | Sb _ cs => sb_from_u32_unsafe cs fl src space
  end.
(* charset.from_u32().unsafe_transcode_size *)
Definition from_u32_unsafe_size_of (c : cset) (fl : flags) (src : list Z) (limit : Z) : option sz_res :=
  match c with
  | Utf g => option_map lift_size (unsafe_size_of U32 g (f_lax fl) src limit)
  | Sb _ cs => sb_from_u32_unsafe_size cs fl src limit
  end.

(* find_transcoder(a, b).transcode_func(): a static transcoder between two UTFs, to and
   from UTF-32, or the charset's own sanitizer; nullptr otherwise *)
Definition direct (a b : cset) : option (flags -> list Z -> Z -> option tr_result) :=
  match a, b with
  | Utf f, Utf g => Some (fun fl src sp => option_map lift (transcode_of f g (f_lax fl) (f_stop_invalid fl) src sp))
  | Sb _ cs, Utf U32 => Some (sb_to_u32 cs)
  | Utf U32, Sb _ cs => Some (sb_from_u32 cs)
  | Sb i cs, Sb j _ => if (i =? j)%nat then Some (sb_sanitize cs) else None
  | _, _ => None
  end.

(* decode_encode, 1107-1128, and strf::transcode(src_charset, dst_charset, ...), 1496-1521;
   [length src + 1] rounds are enough *)
Definition pivot_transcode (a b : cset) (fl : flags) (src : list Z) (space : Z) : option de_result :=
  decode_encode (to_u32_of a fl) (from_u32_unsafe_of b fl) (S (length src)) src space.
(* charset.hpp:1496-1521 *)
Definition transcode_between (a b : cset) (fl : flags) (src : list Z) (space : Z) : option de_result :=
  match direct a b with
  | Some func => do r <- func fl src space ; Some (mk_de (r_rest r) (r_out r) 0 (r_reason r) (r_notes r))
  | None => pivot_transcode a b fl src space
  end.
(* decode_encode_size, 1305-1324 *)
Definition pivot_size_of (a b : cset) (fl : flags) (src : list Z) (limit : Z) : option des_result :=
  decode_encode_size (to_u32_of a fl) (from_u32_unsafe_size_of b fl) pivot_size (S (length src)) src limit 0.
(* unsafe_decode_encode, 1363-1384, and unsafe_decode_encode_size, 1447-1466 *)
Definition pivot_unsafe (a b : cset) (fl : flags) (src : list Z) (space : Z) : option de_result :=
  decode_encode (to_u32_unsafe_of a fl) (from_u32_unsafe_of b fl) (S (length src)) src space.
(* charset.hpp:1447-1466 *)
Definition pivot_unsafe_size (a b : cset) (fl : flags) (src : list Z) (limit : Z) : option des_result :=
  decode_encode_size (to_u32_unsafe_of a fl) (from_u32_unsafe_size_of b fl) unsafe_size_pivot (S (length src)) src limit 0.
(* strf::transcode(src_charset, dst_charset, src, src_end, destination), 1585-1611 *)
Definition transcode_into {S} (ops : dest_ops S) (a b : cset) (fl : flags) (s : S) (src : list Z) : option (S * des_result) :=
  match direct a b with
  | Some func =>
      do r <- transcode_to_dest (func fl) ops (Datatypes.S (Datatypes.S (length src))) s src ;
      Some (fst r, mk_des (z_size (snd r)) (z_rest (snd r)) 0 (z_reason (snd r)))
  | None => decode_encode_dest (to_u32_of a fl) (from_u32_unsafe_of b fl) ops (Datatypes.S (length src)) s src
  end.

(* find_transcoder(a, b).unsafe_transcode_func() and unsafe_transcode_size_func(): non-null
   exactly when transcode_func is.  A single-byte charset to itself copies: SbcsModel.sb_copy *)
Definition direct_unsafe (a b : cset) : option (flags -> list Z -> Z -> option tr_result) :=
  match a, b with
  | Utf f, Utf g => Some (fun fl src sp => option_map lift (unsafe_transcode_of f g (f_lax fl) src sp))
  | Sb _ cs, Utf U32 => Some (fun _ => sb_to_u32_unsafe cs)
  | Utf U32, Sb _ cs => Some (sb_from_u32_unsafe cs)
  | Sb i _, Sb j _ => if (i =? j)%nat then Some (fun _ => sb_copy) else None
  | _, _ => None
  end.
(* as direct_unsafe: unsafe_transcode_size_func, charset.hpp:409-413; utf.hpp:294, 364, 434 ...; single_byte_charsets.hpp:2507, 2645, 2798 *)
Definition direct_unsafe_size (a b : cset) : option (flags -> list Z -> Z -> option sz_res) :=
  match a, b with
  | Utf f, Utf g => Some (fun fl src limit => option_map lift_size (unsafe_size_of f g (f_lax fl) src limit))
  | Sb _ _, Utf U32 => Some (fun _ => sb_unsafe_size)
  | Utf U32, Sb _ cs => Some (sb_from_u32_unsafe_size cs)
  | Sb i _, Sb j _ => if (i =? j)%nat then Some (fun _ => sb_unsafe_size) else None
  | _, _ => None
  end.
(* strf::transcode(func, ...) with the unsafe function, charset.hpp:1548-1583, or
   strf::decode_encode with the two unsafe functions, 1158-1214, as string.hpp:1206-1219 does *)
Definition unsafe_into {S} (ops : dest_ops S) (a b : cset) (fl : flags) (s : S) (src : list Z) : option (S * des_result) :=
  match direct_unsafe a b with
  | Some func =>
      do r <- transcode_to_dest (func fl) ops (Datatypes.S (Datatypes.S (length src))) s src ;
      Some (fst r, mk_des (z_size (snd r)) (z_rest (snd r)) 0 (z_reason (snd r)))
  | None => decode_encode_dest (to_u32_unsafe_of a fl) (from_u32_unsafe_of b fl) ops (Datatypes.S (length src)) s src
  end.
