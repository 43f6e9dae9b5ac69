(** * How much a decoded value holds

    The number of its parts: numbers, flags, names of variants, presence
    marks, lists and structs count one each, and so does every byte of a byte
    string.  The memory a value takes is within a constant factor of it. *)
From Verif Require Import Base Types.

Fixpoint parts (v : val) : nat :=
  match v with
  | VInt _ | VBool _ | VNull | VEnum _ | VOpt None => 1
  | VBytes l => 1 + length l
  | VOpt (Some v') => 1 + parts v'
  | VList l => 1 + fold_right (fun v' n => parts v' + n) 0 l
  | VChoice _ v' => 1 + parts v'
  | VStruct l => 1 + fold_right (fun x n => parts (snd x) + n) 0 l
  end%nat.
