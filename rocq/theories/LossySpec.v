(** * Repaired text: what [String::from_utf8_lossy] documents *)
From Verif Require Import Base Utf8.
#[local] Open Scope Z_scope.
#[local] Open Scope list_scope.

Definition has_prefix (p l : list Z) : Prop := exists r, l = p ++ r.
(** These bytes begin the encoding of some character. *)
Definition begins_char (p : list Z) : Prop := exists c, scalar c /\ has_prefix p (utf8_char c).
(** Encoded characters are kept.  Where no character is encoded, the longest
    run of bytes that could have begun one, or a single byte if there is none,
    is replaced by U+FFFD. *)
Inductive repaired : list Z -> list Z -> Prop :=
| repaired_end : repaired [] []
| repaired_char : forall c l r, scalar c -> repaired l r -> repaired (utf8_char c ++ l) (utf8_char c ++ r)
| repaired_broken : forall p l r, p <> [] ->
    (forall c, scalar c -> ~ has_prefix (utf8_char c) (p ++ l)) ->
    length p = 1%nat \/ begins_char p ->
    (forall q, has_prefix q (p ++ l) -> (length p < length q)%nat -> ~ begins_char q) ->
    repaired l r -> repaired (p ++ l) (utf8_char 0xfffd ++ r).
