(* C73: text printed in another encoding is well-formed and keeps its characters; printing it back gives the original.
   [text_in]: the code points of a text, U+FFFD for an ill-formed subsequence (Properties_Pivot).  [valid_text], [encode]: UtfSpec.
   [writes_string]: what the string printer appends (TextRead). *)
From Coq Require Import Permutation.
From Verif Require Import Base UtfSpec UtfForms UtfLoop UtfTheorems SbcsTables SbcsModel SbcsProofs CsetModel CsetProofs Properties_Sbcs Properties_Pivot
  CharsetModel IntModel IntSpec WidthModel WCalcModel PrintModel PrintSpec PrintProofs StringModel StringSpec StringProofs SegProofs ToModel ToProofs PackSpec PackModel PackProofs
  SyntaxModel SyntaxSpec SyntaxProofs Properties_Args TextRead.
Local Open Scope Z_scope.

(* whatever the source, a transcoding string printer writes a well-formed text: the source's characters;
   sanitizing that text again, with any printer options, changes nothing *)
Theorem C73_sanitized : forall w pol a g same src, is_cset a -> unit_text a src -> countable w a src ->
  copied pol a (Utf g) = false -> is_unsafe pol = false -> 4 * zlen src < ssize_max ->
  exists cps, text_in a false src cps /\ valid_text false cps /\
    writes_string w pol a (Utf g) same src (encode (enc_of g) cps) /\
    forall w' pol' same', writes_string w' pol' (Utf g) (Utf g) same' (encode (enc_of g) cps) (encode (enc_of g) cps).
Proof.
  intros w pol a g same src HA HU HC HP HN HL. destruct (C28_text_exists a false src HA HU) as [cps HT]. destruct (text_valid a src cps HA HU HT) as [HV HZ].
  pose proof (encode_len g cps) as HE. exists cps. split; [exact HT|]. split; [exact HV|]. split.
  - apply writes_rendered; auto; [exact I| |lia]. unfold rendered. rewrite HP. split; [congruence|]. exists cps, (map (enc_of g) cps). split; [exact HT|]. split; [apply encoded_utf|symmetry; apply concat_encode].
  - intros w' pol' same'. apply writes_rendered; [exact I|exact I|apply units_encode, HV|apply countable_encode, HV| |lia].
    destruct pol'; [reflexivity|apply rendered_utf; auto; discriminate..].
Qed.

(* well-formed text keeps its code points, and printing the result in the first encoding gives the text back;
   with any of the transcoding policies, the unsafe ones too *)
Theorem C73_round_trip : forall w w' pol pol' f g same same' src, well_formed (enc_of f) false src -> 4 * zlen src < ssize_max ->
  pol <> NoTranscode -> pol' <> NoTranscode ->
  exists cps, valid_text false cps /\ src = encode (enc_of f) cps /\
    writes_string w pol (Utf f) (Utf g) same src (encode (enc_of g) cps) /\
    writes_string w' pol' (Utf g) (Utf f) same' (encode (enc_of g) cps) src.
Proof.
  intros w w' pol pol' f g same same' src (cps & HV & ->) HL HP HP'. pose proof (encode_len g cps) as HE. pose proof (encode_len f cps) as HF.
  exists cps. split; [exact HV|]. split; [reflexivity|].
  split; (apply writes_rendered; [exact I|exact I|apply units_encode, HV|apply countable_encode, HV|apply rendered_utf; assumption|lia]).
Qed.

(* the same for the 25 single-byte charsets, when every byte is mapped *)
Theorem C73_round_trip_bytes : forall w w' pol pol' i cs g same same' src, nth_error all_sbcs i = Some cs ->
  Forall (fun b => 0 <= b < 256 /\ sb_valid cs b = true) src -> 4 * zlen src < ssize_max -> pol <> NoTranscode -> pol' <> NoTranscode ->
  exists cps, map (sb_decode cs) src = map Some cps /\ valid_text false cps /\
    writes_string w pol (Sb i cs) (Utf g) same src (encode (enc_of g) cps) /\
    writes_string w' pol' (Utf g) (Sb i cs) same' (encode (enc_of g) cps) src.
Proof.
  intros w w' pol pol' i cs g same same' src Hi HB HL HP HP'.
  assert (HU : unit_text (Sb i cs) src) by (eapply Forall_impl; [|exact HB]; intros b H; exact (proj1 H)).
  assert (HW : Forall (fun b => sb_valid cs b = true) src) by (eapply Forall_impl; [|exact HB]; intros b H; exact (proj2 H)).
  destruct (C28_text_exists (Sb i cs) false src Hi HU) as [cps HT]. destruct (text_valid (Sb i cs) src cps Hi HU HT) as [HV HZ]. pose proof (encode_len g cps) as HE.
  exists cps. split; [exact HT|]. split; [exact HV|]. split; (apply writes_rendered; auto; try exact I; try lia).
  - destruct w; cbn [countable]; auto.
  - unfold rendered. replace (copied pol (Sb i cs) (Utf g)) with false by (destruct pol as [| | |[]]; cbn; try reflexivity; congruence). split; [intros _; exact HW|].
    exists cps, (map (enc_of g) cps). split; [exact HT|]. split; [apply encoded_utf|symmetry; apply concat_encode].
  - apply units_encode, HV.
  - apply countable_encode, HV.
  - unfold rendered. replace (copied pol' (Utf g) (Sb i cs)) with false by (destruct g, pol' as [| | |[]]; cbn; try reflexivity; congruence). split; [intros _; apply wf_encode, HV|].
    exists cps, (map (fun b => [b]) src). split; [apply text_encode, HV|]. split; [apply sb_encoded; assumption|symmetry; apply concat_single].
Qed.

(* end to end: the string built by a printing expression, under any facets, reservations and order of evaluation *)
Theorem C73_to_string : forall get_default constrainable qs cat' o order fs ls tag cat ov w_of pol a g same src,
  chain Rvalue (to_creator c_to_string) qs = Some (cat', o) -> (forall l, Permutation l (order l)) ->
  ls = flat_map leaves (flat_map with_facets qs ++ fs) ->
  (forall look look', (forall c, look c = look' c) -> w_of look = w_of look' :> wcalc) ->
  is_cset a -> unit_text a src -> (forall look, countable (w_of look) a src) ->
  copied pol a (Utf g) = false -> is_unsafe pol = false -> 4 * zlen src < ssize_max -> own_printer get_default ls tag cat ov ->
  exists cps, text_in a false src cps /\ valid_text false cps /\
    sy_print get_default constrainable o false order
      (map (AFpe false) fs ++ [APrintable (reading get_default tag cat ov (fun look => string_arg (w_of look) pol a (Utf g) same None None src))])
    = Some (encode (enc_of g) cps).
Proof.
  intros df cn qs cat' o order fs ls tag cat ov w_of pol a g same src HC Hord -> HE HA HU HW HP HN HL HO.
  set (x := reading df tag cat ov _). set (ls := flat_map leaves (flat_map with_facets qs ++ fs)) in *. set (look := fun c => facet_for df ls c tag).
  destruct (C28_text_exists a false src HA HU) as [cps HT]. destruct (text_valid a src cps HA HU HT) as [HV HZ]. pose proof (encode_len g cps) as HB.
  destruct (segmented_exists a src HA HU) as [l HS]. exists cps. split; [exact HT|]. split; [exact HV|].
  assert (HSh : shows df cn None ls x (string_desc (w_of look) None (seg_width (w_of look) l) (encode (enc_of g) cps))).
  { refine (C64_string df cn None ls tag cat ov w_of (fun _ => pol) (fun _ => Utf g) a same src l (fun _ => encode (enc_of g) cps) _ _ HS HO).
    - intros k k' E. rewrite (HE k k' E). auto.
    - intros k. split; [exact (conj HA (conj I (conj HU (conj (HW k) I))))|]. split; [|lia].
      unfold rendered. rewrite HP. split; [congruence|]. exists cps, (map (enc_of g) cps). split; [exact HT|]. split; [apply encoded_utf|symmetry; apply concat_encode]. }
  destruct (sy_print_ok df cn None c_to_string _ Rvalue qs cat' o false order (map (AFpe false) fs ++ map APrintable [x]) fs [x] [string_desc (w_of look) None (seg_width (w_of look) l) (encode (enc_of g) cps)] to_string_keeps HC) as (r & Hr & ->).
  - apply separate_ok. exists (repeat false (length fs)). split; [apply repeat_length|]. f_equal. clear. induction fs as [|q fs IH]; [reflexivity|]. cbn. rewrite <- IH. reflexivity.
  - exact Hord.
  - constructor; [exact HSh|constructor].
  - cbn [map] in Hr. rewrite Hr. cbn [map concat d_text string_desc]. rewrite !app_nil_r. reflexivity.
Qed.

(* ---- cases ---- *)
(* E2 82 is cut short, then 'A': U+FFFD, 'A' in UTF-16 *)
Example C73_sanitized_ex : exists cat' o,
  chain Rvalue (to_creator c_to_string) [] = Some (cat', o) /\ copied SaniIfDifferent (Utf U8) (Utf U16) = false /\ copied SaniAlways (Utf U8) (Utf U8) = false /\
  sy_print (fun _ => 0) (fun _ => true) o false (fun l => l)
    [APrintable (reading (fun _ => 0) 7 8 false (fun _ => string_arg FastWidth SaniIfDifferent (Utf U8) (Utf U16) false None None [0xE2; 0x82; 65]))] = Some [0xFFFD; 65].
Proof. eexists _, _. split; [reflexivity|]. split; [reflexivity|]. split; [reflexivity|]. vm_compute. reflexivity. Qed.
(* the euro sign and U+1F600 *)
Example C73_round_trip_ex : well_formed enc8 false [0xE2; 0x82; 0xAC; 0xF0; 0x9F; 0x98; 0x80] /\
  encode enc16 [0x20AC; 0x1F600] = [0x20AC; 0xD83D; 0xDE00] /\ encode enc8 [0x20AC; 0x1F600] = [0xE2; 0x82; 0xAC; 0xF0; 0x9F; 0x98; 0x80].
Proof. split; [exists [0x20AC; 0x1F600]; split; [repeat constructor; cbn; auto; lia|reflexivity]|split; reflexivity]. Qed.
(* the euro sign in windows-1252 *)
Example C73_round_trip_bytes_ex : nth_error all_sbcs 18 = Some windows_1252 /\ Forall (fun b => 0 <= b < 256 /\ sb_valid windows_1252 b = true) [0x80; 65] /\
  map (sb_decode windows_1252) [0x80; 65] = map Some [0x20AC; 65].
Proof. split; [reflexivity|]. split; [repeat constructor; try lia; vm_compute; reflexivity|vm_compute; reflexivity]. Qed.

Print Assumptions C73_sanitized.
Print Assumptions C73_round_trip.
Print Assumptions C73_round_trip_bytes.
Print Assumptions C73_to_string.
