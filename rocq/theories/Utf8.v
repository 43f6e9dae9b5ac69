(** * UTF-8 validation and strings

    Rust's [String] is modelled by Coq's [string] (a sequence of bytes). *)
From Coq Require Import Ascii.
From Verif Require Import Base.
#[local] Open Scope list_scope.

Definition is_cont (b : Z) : bool := (0x80 <=? b) && (b <=? 0xbf).

(** Model of [core::str::from_utf8]'s validation (std, external): the
    well-formed byte sequences of Unicode's Table 3-7. *)
Fixpoint utf8_ok (l : list Z) : bool :=
  match l with
  | [] => true
  | b0 :: l1 =>
      if b0 <=? 0x7f then utf8_ok l1
      else if (0xc2 <=? b0) && (b0 <=? 0xdf) then
        match l1 with b1 :: l2 => is_cont b1 && utf8_ok l2 | _ => false end
      else if (0xe0 <=? b0) && (b0 <=? 0xef) then
        match l1 with
        | b1 :: b2 :: l3 =>
            (if b0 =? 0xe0 then (0xa0 <=? b1) && (b1 <=? 0xbf)
             else if b0 =? 0xed then (0x80 <=? b1) && (b1 <=? 0x9f)
             else is_cont b1) && is_cont b2 && utf8_ok l3
        | _ => false
        end
      else if (0xf0 <=? b0) && (b0 <=? 0xf4) then
        match l1 with
        | b1 :: b2 :: b3 :: l4 =>
            (if b0 =? 0xf0 then (0x90 <=? b1) && (b1 <=? 0xbf)
             else if b0 =? 0xf4 then (0x80 <=? b1) && (b1 <=? 0x8f)
             else is_cont b1) && is_cont b2 && is_cont b3 && utf8_ok l4
        | _ => false
        end
      else false
  end.

Definition ascii_of_Z (z : Z) : ascii := ascii_of_N (Z.to_N z).
(** The string made of these bytes. *)
Definition str_of_bytes (l : list Z) : string := fold_right (fun b s => String (ascii_of_Z b) s) EmptyString l.
(** [str::from_utf8(&l)?.to_string()]. *)
Definition from_utf8 (l : list Z) : outcome string := if utf8_ok l then Ok (str_of_bytes l) else Err EUtf8.

(** Decimal digits, for [format!("{:?}", Vec<u8>)]. *)
Definition digit (z : Z) : string := String (ascii_of_Z (48 + z)) EmptyString.
Definition show_u8 (z : Z) : string :=
  if z <? 10 then digit z
  else if z <? 100 then (digit (z / 10) ++ digit (z mod 10))%string
  else (digit (z / 100) ++ digit (z / 10 mod 10) ++ digit (z mod 10))%string.
Fixpoint show_items (l : list Z) : string :=
  match l with
  | [] => EmptyString
  | [b] => show_u8 b
  | b :: l' => (show_u8 b ++ ", " ++ show_items l')%string
  end.
Definition show_bytes (l : list Z) : string := ("[" ++ show_items l ++ "]")%string.

(** ** Specification: scalar values and their encoding *)
Definition scalar (c : Z) : Prop := 0 <= c < 0xd800 \/ 0xe000 <= c <= 0x10ffff.
Definition utf8_char (c : Z) : list Z :=
  if c <=? 0x7f then [c]
  else if c <=? 0x7ff then [0xc0 + c / 64; 0x80 + c mod 64]
  else if c <=? 0xffff then [0xe0 + c / 4096; 0x80 + c / 64 mod 64; 0x80 + c mod 64]
  else [0xf0 + c / 262144; 0x80 + c / 4096 mod 64; 0x80 + c / 64 mod 64; 0x80 + c mod 64].
Definition utf8_text (cs : list Z) : list Z := flat_map utf8_char cs.
