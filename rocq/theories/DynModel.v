(* dynamic_charset, dynamic_transcoder, the members find_transcoder_from/to of every charset, strf::find_transcoder
   and the functions that use it: include/strf/detail/facets/charset.hpp:128-190, 320-1023, 1496-1850,
   include/strf/detail/utf.hpp:907-1362, include/strf/detail/single_byte_charsets.hpp:2835-3113.
   char8_t exists (__cpp_char8_t). *)
From Verif Require Import Base DestModel UtfSpec UtfModel UtfSizeModel UtfForms TransSpec SbcsTables SbcsModel PivotModel CsetModel.
From Coq Require Import List.

(* the character types CharT of the library: char, char8_t, char16_t, char32_t, wchar_t (charset.hpp:162-181) *)
Inductive ctype := TChar | TChar8 | TChar16 | TChar32 | TWchar.
(* std::is_same on character types (charset.hpp:943-1006) *)
Definition ctype_eqb (a b : ctype) : bool :=
  match a, b with TChar, TChar | TChar8, TChar8 | TChar16, TChar16 | TChar32, TChar32 | TWchar, TWchar => true | _, _ => false end.
(* equality of the ids csid_utf8, csid_utf16, csid_utf32 (charset.hpp:131-133) *)
Definition form_eqb (f g : form) : bool := match f, g with U8, U8 | U16, U16 | U32, U32 => true | _, _ => false end.

(* 131-158 the ids; the single-byte charsets in the order of all_sbcs *)
Definition csid_utf8 : Z := 0x04650346.
(* charset.hpp:131-158 *)
Definition csid_utf16 : Z := 0x0439cb08.
(* charset.hpp:131-158 *)
Definition csid_utf32 : Z := 0x67be80a2.
(* charset.hpp:131-158 *)
Definition sb_ids : list Z :=
  [0x9dea526b; 0xcf00a401; 0xcf00a402; 0xcf00a403; 0xcf00a404; 0xcf00a405; 0xcf00a406; 0xcf00a407; 0xcf00a408; 0xcf00a409;
   0xcf00a410; 0xcf00a411; 0xcf00a413; 0xcf00a414; 0xcf00a415; 0xcf00a416; 0x5cff7250; 0x5cff7251; 0x5cff7252; 0x5cff7253;
   0x5cff7254; 0x5cff7255; 0x5cff7256; 0x5cff7257; 0x5cff7258].
(* charset.hpp:131-158: the id of a charset *)
Definition csid_of (c : cset) : Z :=
  match c with Utf U8 => csid_utf8 | Utf U16 => csid_utf16 | Utf U32 => csid_utf32 | Sb i _ => nth i sb_ids 0 end.

(* 326-422: four functions; a null dynamic_transcoder is None *)
Record transcoder := mk_transcoder {
  tc_func : flags -> list Z -> Z -> option tr_result; tc_size : flags -> list Z -> Z -> option sz_res;
  tc_unsafe : flags -> list Z -> Z -> option tr_result; tc_unsafe_size : flags -> list Z -> Z -> option sz_res }.

Section Platform.
  (* sizeof(wchar_t) is 4 (or 2), wchar_t is signed *)
  Variables (wchar4 wchar_signed : bool).
  Definition form_of (t : ctype) : form :=             (* 162-181 get_csid_utf *)
    match t with TChar | TChar8 => U8 | TChar16 => U16 | TChar32 => U32 | TWchar => if wchar4 then U32 else U16 end.
  (* charset.hpp:162-185 csid_utf, get_csid_utf<CharT> *)
  Definition csid_utf_of (t : ctype) : Z := csid_of (Utf (form_of t)).
  Definition is_signed (t : ctype) : bool := match t with TWchar => wchar_signed | _ => false end.   (* matters for 32 bits only *)
  (* static_transcoder<Src, Dst, SrcId, DstId>, where it is defined; [st] is Src *)
  Definition static_transcoder (st : ctype) (a b : cset) : option transcoder :=
    match a, b with
    | Utf f, Utf g => Some (mk_transcoder
        (fun fl src sp => option_map lift (transcode_of f g (f_lax fl) (f_stop_invalid fl) src sp))
        (fun fl src limit => option_map lift_size (transcode_size_of f g (is_signed st) (f_lax fl) (f_stop_invalid fl) src limit))
        (fun fl src sp => option_map lift (unsafe_transcode_of f g (f_lax fl) src sp))
        (fun fl src limit => option_map lift_size (unsafe_size_of f g (f_lax fl) src limit)))
    | Sb _ cs, Utf U32 => Some (mk_transcoder (sb_to_u32 cs) (sb_to_u32_size cs) (fun _ => sb_to_u32_unsafe cs) (fun _ => sb_unsafe_size))
    | Utf U32, Sb _ cs => Some (mk_transcoder (sb_from_u32 cs) (sb_from_u32_size cs) (sb_from_u32_unsafe cs) (sb_from_u32_unsafe_size cs))
    | Sb i cs, Sb j _ => if (i =? j)%nat
        then Some (mk_transcoder (sb_sanitize cs) (sb_to_u32_size cs) (fun _ => sb_copy) (fun _ => sb_unsafe_size)) else None
    | _, _ => None
    end.

  (* ---- the members of static_charset<t, csid_of c> ---- *)
  Definition st_repl (c : cset) : Z := match c with Utf _ => 0xFFFD | Sb _ _ => sb_replacement_char end.
  (* replacement_char_size(): utf.hpp:907-1362, single_byte_charsets.hpp:2915-3033 *)
  Definition st_repl_size (c : cset) : Z := match c with Utf U8 => 3 | _ => 1 end.
  (* validate(): utf.hpp:907-1362, single_byte_charsets.hpp:2915-3033 *)
  Definition st_validate (c : cset) (ch : Z) : option Z := match c with Utf f => Some (validate_of f ch) | Sb _ cs => sb_validate cs ch end.
  (* encoded_char_size(), same lines *)
  Definition st_char_size (c : cset) (ch : Z) : Z := match c with Utf f => char_size_of f ch | Sb _ _ => sb_char_size ch end.
  (* encode_char(), same lines *)
  Definition st_encode (c : cset) (ch : Z) : option (list Z) := match c with Utf f => Some (encode_char_of f ch) | Sb _ cs => sb_encode_char cs ch end.
  (* encode_fill(), same lines *)
  Definition st_fill (c : cset) (n ch : Z) : option op := match c with Utf f => Some (encode_fill_of f n ch) | Sb _ cs => sb_encode_fill cs n ch end.
  (* count_codepoints_fast(), same lines *)
  Definition st_count_fast (c : cset) (src : list Z) (max : Z) : option (Z * list Z) := match c with Utf f => count_fast_of f src max | Sb _ _ => sb_count src max end.
  (* count_codepoints(), same lines *)
  Definition st_count (c : cset) (src : list Z) (max : Z) : option (Z * list Z) := match c with Utf f => count_of f src max | Sb _ _ => sb_count src max end.
  (* write_replacement_char(), same lines *)
  Definition st_write_repl (c : cset) : op := match c with Utf f => write_replacement_of f | Sb _ _ => sb_write_replacement end.
  (* decode_unit(), same lines *)
  Definition st_decode_unit (char_signed : bool) (c : cset) (t : ctype) (u : Z) : option Z :=
    match c with
    | Utf U8 => Some (decode_unit8 (match t with TChar => char_signed | _ => false end) u)
    | Utf U16 => Some (decode_unit16 u) | Utf U32 => Some (decode_unit32 u) | Sb _ cs => sb_decode_unit cs u
    end.
  (* the charset with id csid_utf32 (charset.hpp:133) *)
  Definition utf32 : cset := Utf U32.
  (* sanitizer(): single_byte_charsets.hpp:2989-2993, utf.hpp:907-1362 *)
  Definition st_sanitizer (c : cset) (t : ctype) : option transcoder := static_transcoder t c c.
  (* from_u32(): single_byte_charsets.hpp:2994-2999, utf.hpp:907-1362 *)
  Definition st_from_u32 (c : cset) : option transcoder := static_transcoder TChar32 utf32 c.
  (* to_u32(): single_byte_charsets.hpp:3000-3005, utf.hpp:907-1362 *)
  Definition st_to_u32 (c : cset) (t : ctype) : option transcoder := static_transcoder t c utf32.
  (* utf.hpp:1012-1029: utf_to_utf<CharT, DstCharT>, for any DstCharT *)
  Definition utf_find_to (f : form) (t d : ctype) (id : Z) : option transcoder :=
    if id =? csid_utf_of d then static_transcoder t (Utf f) (Utf (form_of d)) else None.
  (* utf.hpp:998-1029: for any source character type *)
  Definition utf_find_from (f : form) (s : ctype) (id : Z) : option transcoder :=
    if id =? csid_utf_of s then static_transcoder s (Utf (form_of s)) (Utf f) else None.
  (* single_byte_charsets.hpp:2874-2893 *)
  Definition sb_find_to_wchar (c : cset) (t : ctype) (id : Z) : option transcoder := if id =? csid_utf32 then static_transcoder t c utf32 else None.
  (* single_byte_charsets.hpp:2876-2885 *)
  Definition sb_find_from_wchar (c : cset) (id : Z) : option transcoder := if id =? csid_utf32 then static_transcoder TWchar utf32 c else None.
  (* 3089-3110 *)
  Definition sb_find_from_narrow (c : cset) (s : ctype) (id : Z) : option transcoder := if id =? csid_of c then static_transcoder s c c else None.
  (* single_byte_charsets.hpp:3089-3110 *)
  Definition sb_find_to_narrow (c : cset) (t : ctype) (id : Z) : option transcoder := if id =? csid_of c then static_transcoder t c c else None.
  (* find_transcoder_to(tag<d>, id) and find_transcoder_from(tag<s>, id); None: no such member.
     utf.hpp:998-1009, single_byte_charsets.hpp:2835-2872, 3007-3033 *)
  Definition st_find_to (c : cset) (t d : ctype) : option (Z -> option transcoder) :=
    match c, d with
    | Utf f, _ => Some (utf_find_to f t d)
    | Sb _ _, TWchar => Some (if wchar4 then sb_find_to_wchar c t else fun _ => None)
    | Sb _ _, TChar | Sb _ _, TChar8 => Some (sb_find_to_narrow c t)
    | Sb _ _, _ => None
    end.
  (* find_transcoder_from(tag<s>, id): utf.hpp:998-1009, single_byte_charsets.hpp:2835-2872, 3007-3033 *)
  Definition st_find_from (c : cset) (s : ctype) : option (Z -> option transcoder) :=
    match c, s with
    | Utf f, _ => Some (utf_find_from f s)
    | Sb _ _, TWchar => Some (if wchar4 then sb_find_from_wchar c else fun _ => None)
    | Sb _ _, TChar | Sb _ _, TChar8 => Some (sb_find_from_narrow c s)
    | Sb _ _, _ => None
    end.

  (* ---- dynamic_charset_data, 424-518: a null function pointer is None ---- *)
  Variable char_signed : bool.
  (* charset.hpp:424-518 dynamic_charset_data *)
  Record cdata := mk_cdata {
    cd_id : Z; cd_repl : Z; cd_repl_size : Z;
    cd_validate : Z -> option Z; cd_char_size : Z -> Z; cd_encode : Z -> option (list Z); cd_fill : Z -> Z -> option op;
    cd_count_fast : list Z -> Z -> option (Z * list Z); cd_count : list Z -> Z -> option (Z * list Z);
    cd_write_repl : op; cd_decode_unit : Z -> option Z;
    cd_sanitizer : option transcoder; cd_from_u32 : option transcoder; cd_to_u32 : option transcoder;
    cd_from_wchar : option (Z -> option transcoder); cd_to_wchar : option (Z -> option transcoder);
    cd_from_char16 : option (Z -> option transcoder); cd_to_char16 : option (Z -> option transcoder);
    cd_from_char : option (Z -> option transcoder); cd_to_char : option (Z -> option transcoder);
    cd_from_char8 : option (Z -> option transcoder); cd_to_char8 : option (Z -> option transcoder) }.
  (* to_dynamic(): utf.hpp:1030-1052, 1171-1195, 1339-1362; single_byte_charsets.hpp:3036-3060 *)
  Definition to_dynamic (c : cset) (t : ctype) : cdata :=
    match c with
    | Utf f => mk_cdata (csid_of c) (st_repl c) (match f with U8 => 3 | _ => 1 end)
        (st_validate c) (st_char_size c) (st_encode c) (st_fill c) (st_count_fast c) (st_count c) (st_write_repl c) (st_decode_unit char_signed c t)
        (st_sanitizer c t) (st_from_u32 c) (st_to_u32 c t)
        (Some (utf_find_from f TWchar)) (Some (utf_find_to f t TWchar))
        (Some (utf_find_from f TChar16)) (Some (utf_find_to f t TChar16))
        (Some (utf_find_from f TChar)) (Some (utf_find_to f t TChar))
        (Some (utf_find_from f TChar8)) (Some (utf_find_to f t TChar8))
    | Sb _ _ => mk_cdata (csid_of c) (st_repl c) 1
        (st_validate c) (st_char_size c) (st_encode c) (st_fill c) (st_count_fast c) (st_count c) (st_write_repl c) (st_decode_unit char_signed c t)
        (st_sanitizer c t) (st_from_u32 c) (st_to_u32 c t)
        (if wchar4 then Some (sb_find_from_wchar c) else None) (if wchar4 then Some (sb_find_to_wchar c t) else None)
        None None
        (Some (sb_find_from_narrow c TChar)) (Some (sb_find_to_narrow c t))
        (Some (sb_find_from_narrow c TChar8)) (Some (sb_find_to_narrow c t))
    end.
  (* dynamic_charset::find_transcoder_to and _from, 639-707 *)
  Definition call_or_null (f : option (Z -> option transcoder)) : Z -> option transcoder :=
    fun id => match f with Some g => g id | None => None end.
  (* charset.hpp:639-707 *)
  Definition dy_find_to (d : cdata) (t : ctype) : option (Z -> option transcoder) :=
    match t with
    | TWchar => Some (call_or_null (cd_to_wchar d)) | TChar16 => Some (call_or_null (cd_to_char16 d))
    | TChar => Some (call_or_null (cd_to_char d)) | TChar8 => Some (call_or_null (cd_to_char8 d)) | TChar32 => None
    end.
  (* charset.hpp:639-707 *)
  Definition dy_find_from (d : cdata) (t : ctype) : option (Z -> option transcoder) :=
    match t with
    | TWchar => Some (call_or_null (cd_from_wchar d)) | TChar16 => Some (call_or_null (cd_from_char16 d))
    | TChar => Some (call_or_null (cd_from_char d)) | TChar8 => Some (call_or_null (cd_from_char8 d)) | TChar32 => None
    end.
  (* operator==, 539-546 *)
  Definition dy_eq (a b : cdata) : bool := cd_id a =? cd_id b.

  (* ---- a charset object, static or dynamic ---- *)
  Inductive charset_object := Static (c : cset) (t : ctype) | Dynamic (d : cdata) (t : ctype).
  (* code_unit of the charset (charset.hpp:534, 1021) *)
  Definition o_type (o : charset_object) : ctype := match o with Static _ t | Dynamic _ t => t end.
  (* id() of the charset *)
  Definition o_id (o : charset_object) : Z := match o with Static c _ => csid_of c | Dynamic d _ => cd_id d end.
  (* sanitizer(); charset.hpp:609-621 for a dynamic_charset *)
  Definition o_sanitizer (o : charset_object) : option transcoder := match o with Static c t => st_sanitizer c t | Dynamic d _ => cd_sanitizer d end.
  (* from_u32(); charset.hpp:609-629 *)
  Definition o_from_u32 (o : charset_object) : option transcoder := match o with Static c _ => st_from_u32 c | Dynamic d _ => cd_from_u32 d end.
  (* to_u32(); charset.hpp:609-637 *)
  Definition o_to_u32 (o : charset_object) : option transcoder := match o with Static c t => st_to_u32 c t | Dynamic d _ => cd_to_u32 d end.
  (* find_transcoder_to of a static or dynamic charset *)
  Definition o_find_to (o : charset_object) (t : ctype) : option (Z -> option transcoder) :=
    match o with Static c s => st_find_to c s t | Dynamic d _ => dy_find_to d t end.
  (* find_transcoder_from of a static or dynamic charset *)
  Definition o_find_from (o : charset_object) (t : ctype) : option (Z -> option transcoder) :=
    match o with Static c _ => st_find_from c t | Dynamic d _ => dy_find_from d t end.
  (* has_find_transcoder_from, 812-829; has_find_transcoder_to, 831-847, which tests the member
     find_transcoder_from of the source too *)
  Definition has_member (f : option (Z -> option transcoder)) : bool := match f with Some _ => true | None => false end.
  (* charset.hpp:812-829 *)
  Definition has_find_from (s : ctype) (dst : charset_object) : bool := has_member (o_find_from dst s).
  (* charset.hpp:831-847 *)
  Definition has_find_to (d : ctype) (src : charset_object) : bool := has_member (o_find_from src d).
  (* transcoder_finder_2, 861-925; a call to a member that does not exist would not compile: here null *)
  Definition finder_2 (src dst : charset_object) : option transcoder :=
    let to_ := call_or_null (o_find_to src (o_type dst)) (o_id dst) in
    let from_ := call_or_null (o_find_from dst (o_type src)) (o_id src) in
    match has_find_to (o_type dst) src, has_find_from (o_type src) dst with
    | true, true => match to_ with Some t => Some t | None => from_ end
    | true, false => to_
    | false, true => from_
    | false, false => None
    end.
  (* transcoder_finder<false, ...>, 943-1006 *)
  Definition finder (src dst : charset_object) : option transcoder :=
    match o_type src, o_type dst with
    | TChar32, TChar32 => static_transcoder TChar32 utf32 utf32
    | _, TChar32 => o_to_u32 src
    | TChar32, _ => o_from_u32 dst
    | s, d => if ctype_eqb s d then (if o_id src =? o_id dst then o_sanitizer src else finder_2 src dst) else finder_2 src dst
    end.
  (* find_transcoder, 1010-1020 *)
  Definition find_transcoder (src dst : charset_object) : option transcoder :=
    match src, dst with
    | Static a t, Static b _ => match static_transcoder t a b with Some x => Some x | None => finder src dst end
    | _, _ => finder src dst
    end.

  (* ---- the functions between two charsets ---- *)
  (* 1496-1521, and decode_encode, 1107-1128 *)
  Definition o_transcode (a b : charset_object) (fl : flags) (src : list Z) (space : Z) : option de_result :=
    match find_transcoder a b with
    | Some t => do r <- tc_func t fl src space ; Some (mk_de (r_rest r) (r_out r) 0 (r_reason r) (r_notes r))
    | None => do t <- o_to_u32 a ; do u <- o_from_u32 b ; decode_encode (tc_func t fl) (tc_unsafe u fl) (S (length src)) src space
    end.
  (* 1585-1611 *)
  Definition o_transcode_into {S} (ops : dest_ops S) (a b : charset_object) (fl : flags) (s : S) (src : list Z) : option (S * des_result) :=
    match find_transcoder a b with
    | Some t => do r <- transcode_to_dest (tc_func t fl) ops (Datatypes.S (Datatypes.S (length src))) s src ;
        Some (fst r, mk_des (z_size (snd r)) (z_rest (snd r)) 0 (z_reason (snd r)))
    | None => do t <- o_to_u32 a ; do u <- o_from_u32 b ; decode_encode_dest (tc_func t fl) (tc_unsafe u fl) ops (Datatypes.S (length src)) s src
    end.
  (* 1637-1660, decode_encode_size 1305-1324 *)
  Definition o_transcode_size (a b : charset_object) (fl : flags) (src : list Z) (limit : Z) : option des_result :=
    match find_transcoder a b with
    | Some t => do r <- tc_size t fl src limit ; Some (mk_des (z_size r) (z_rest r) 0 (z_reason r))
    | None => do t <- o_to_u32 a ; do u <- o_from_u32 b ; decode_encode_size (tc_func t fl) (tc_unsafe_size u fl) pivot_size (S (length src)) src limit 0
    end.
  (* 1686-1711, unsafe_decode_encode 1363-1384 *)
  Definition o_unsafe_transcode (a b : charset_object) (fl : flags) (src : list Z) (space : Z) : option de_result :=
    match find_transcoder a b with
    | Some t => do r <- tc_unsafe t fl src space ; Some (mk_de (r_rest r) (r_out r) 0 (r_reason r) (r_notes r))
    | None => do t <- o_to_u32 a ; do u <- o_from_u32 b ; decode_encode (tc_unsafe t fl) (tc_unsafe u fl) (S (length src)) src space
    end.
  (* 1739-1765 *)
  Definition o_unsafe_into {S} (ops : dest_ops S) (a b : charset_object) (fl : flags) (s : S) (src : list Z) : option (S * des_result) :=
    match find_transcoder a b with
    | Some t => do r <- transcode_to_dest (tc_unsafe t fl) ops (Datatypes.S (Datatypes.S (length src))) s src ;
        Some (fst r, mk_des (z_size (snd r)) (z_rest (snd r)) 0 (z_reason (snd r)))
    | None => do t <- o_to_u32 a ; do u <- o_from_u32 b ; decode_encode_dest (tc_unsafe t fl) (tc_unsafe u fl) ops (Datatypes.S (length src)) s src
    end.
  (* 1790-1812, unsafe_decode_encode_size 1447-1466 *)
  Definition o_unsafe_size (a b : charset_object) (fl : flags) (src : list Z) (limit : Z) : option des_result :=
    match find_transcoder a b with
    | Some t => do r <- tc_unsafe_size t fl src limit ; Some (mk_des (z_size r) (z_rest r) 0 (z_reason r))
    | None => do t <- o_to_u32 a ; do u <- o_from_u32 b ; decode_encode_size (tc_unsafe t fl) (tc_unsafe_size u fl) unsafe_size_pivot (S (length src)) src limit 0
    end.
  (* the object for charset c over type t: the static_charset, or the dynamic_charset made from its to_dynamic() (charset.hpp:520-560) *)
  Definition object (dynamic : bool) (c : cset) (t : ctype) : charset_object := if dynamic then Dynamic (to_dynamic c t) t else Static c t.
End Platform.
