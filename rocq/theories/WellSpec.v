(* C76.  A fill character, decimal point or character to print that any UTF form can show: not a surrogate, and for
   UTF-32, where nothing replaces it, at most 0x10FFFF (the other forms print U+FFFD beyond it). *)
From Verif Require Import Base UtfForms.
Local Open Scope Z_scope.
Definition printable (g : form) (c : Z) : Prop := 0 <= c < 2 ^ 32 /\ ~ (0xD800 <= c <= 0xDFFF) /\ (g = U32 -> c <= 0x10FFFF).
