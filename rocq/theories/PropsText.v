(** * C63: names are decoded as UTF-8 *)
From Verif Require Import Base Utf8 Utf8Facts.
#[local] Open Scope string_scope.
#[local] Open Scope Z_scope.
#[local] Open Scope list_scope.

(** C63.  The conversion succeeds exactly on the encodings of sequences of
    Unicode scalar values ([utf8_text], Utf8.v), returns exactly those bytes,
    and is otherwise a UTF-8 error.  Different texts stay different. *)
Theorem C63_utf8_exact : forall l, bytes_ok l ->
  (forall s, from_utf8 l = Ok s <-> s = str_of_bytes l /\ exists cs, Forall scalar cs /\ l = utf8_text cs) /\
  (from_utf8 l = Err EUtf8 <-> ~ exists cs, Forall scalar cs /\ l = utf8_text cs) /\
  from_utf8 l <> Panic.
Proof. exact from_utf8_exact. Qed.
Print Assumptions C63_utf8_exact.

Theorem C63_injective : forall l l' s, bytes_ok l -> bytes_ok l' -> from_utf8 l = Ok s -> from_utf8 l' = Ok s -> l = l'.
Proof. exact from_utf8_inj. Qed.
Print Assumptions C63_injective.

Theorem C63_scalar_injective : forall cs cs', Forall scalar cs -> Forall scalar cs' -> utf8_text cs = utf8_text cs' -> cs = cs'.
Proof. exact utf8_text_inj. Qed.
Print Assumptions C63_scalar_injective.

(** "é" and "€" next to an overlong form, a surrogate and a bare continuation byte. *)
Example C63_example : from_utf8 [77; 0xc3; 0xa9; 0xe2; 0x82; 0xac] = Ok (str_of_bytes [77; 195; 169; 226; 130; 172]) /\
  utf8_text [77; 233; 8364] = [77; 0xc3; 0xa9; 0xe2; 0x82; 0xac] /\
  from_utf8 [0xc0; 0x80] = Err EUtf8 /\ from_utf8 [0xed; 0xa0; 0x80] = Err EUtf8 /\ from_utf8 [0x80] = Err EUtf8.
Proof. repeat split. Qed.
