(** * Model of the versioned (byte-aligned) decoder *)
From Verif Require Import Base Vlq Types.

(** A decoder returns the remaining input and a value. *)
Definition parser (A : Type) : Type := list Z -> outcome (list Z * A).

(** Model of src/versioned_decoder.rs:30-80, the [validate_*_tag] functions:
    nom's [tag] for a one-byte tag. *)
Definition validate_tag (t : Z) (input : list Z) : outcome (list Z) :=
  match input with
  | [] => Err ENom
  | b :: tail => if b =? t then Ok tail else Err ENom
  end.

(** Model of nom's [take(n)] on byte slices. *)
Definition take_bytes (n : Z) (input : list Z) : outcome (list Z * list Z) :=
  if Z.of_nat (length input) <? n then Err ENom
  else Ok (skipn (Z.to_nat n) input, firstn (Z.to_nat n) input).

(** Model of nom's [u8]. *)
Definition take_u8 (input : list Z) : outcome (list Z * Z) :=
  match input with [] => Err ENom | b :: tail => Ok (tail, b) end.

(** Model of nom's [u32(Endianness::Big)]. *)
Definition take_u32_be (input : list Z) : outcome (list Z * Z) :=
  match input with
  | a :: b :: c :: d :: tail => Ok (tail, ((a * 256 + b) * 256 + c) * 256 + d)
  | _ => Err ENom
  end.

(** Model of src/versioned_decoder.rs:84-91 [tagged_bitarray]. *)
Definition tagged_bitarray (m : build) (input : list Z) : outcome (list Z * list Z) :=
  do tail <- validate_tag BIT_ARRAY_TAG input;
  do (tail, array_length) <- parse_vlq_int m tail;
  take_bytes ((as_u64 array_length + 7) / 8) tail.

(** Model of src/versioned_decoder.rs:95-101 [tagged_blob]. *)
Definition tagged_blob (m : build) (input : list Z) : outcome (list Z * list Z) :=
  do tail <- validate_tag BLOB_TAG input;
  do (tail, blob_length) <- parse_vlq_int m tail;
  take_bytes (as_u64 blob_length) tail.

(** Model of src/versioned_decoder.rs:105-108 [tagged_vlq_int]. *)
Definition tagged_vlq_int (m : build) (input : list Z) : outcome (list Z * Z) :=
  do tail <- validate_tag INT_TAG input;
  parse_vlq_int m tail.

(** Model of src/versioned_decoder.rs:112-116 [tagged_bool]. *)
Definition tagged_bool (input : list Z) : outcome (list Z * bool) :=
  do tail <- validate_tag BOOL_TAG input;
  do (tail, value) <- take_u8 tail;
  Ok (tail, negb (value =? 0)).

(** Model of src/versioned_decoder.rs:120-125 [tagged_fourcc]. *)
Definition tagged_fourcc (input : list Z) : outcome (list Z * Z) :=
  do tail <- validate_tag FOURCC_TAG input;
  take_u32_be tail.

(** The element loop of an array, e.g. src/versions/protocol87702/mod.rs:266-270.
    The count is an [i64 as usize], so it may be astronomically large; every
    element takes at least a byte, so the input length bounds the rounds
    ([parse_n_fuel] in VersionedProofs). *)
Fixpoint parse_n (fuel : nat) (p : parser val) (n : Z) (input : list Z) : outcome (list Z * list val) :=
  if n =? 0 then Ok (input, [])
  else match fuel with
       | O => Err (EOther "out of fuel")
       | S f =>
           do (tail, v) <- p input;
           do (tail, vs) <- parse_n f p (n - 1) tail;
           Ok (tail, v :: vs)
       end.

(** What is known of a field while the loop runs: its arm, its decoder and the
    [Option] slot ([None], or [Some] of the last value stored). *)
Definition slot : Type := (fld unit * parser val * option val)%type.

(** [if f.is_none()] / [if let Some(None) = f], e.g.
    src/versions/protocol87702/mod.rs:151, 297. *)
Definition slot_free (s : slot) : bool :=
  let '(fd, _, cur) := s in
  match f_init fd, cur with
  | InitNone, None => true
  | InitSomeNone, Some (VOpt None) => true
  | _, _ => false
  end.

Inductive step_res : Type :=
| SUnknown
| SDuplicate (name : string) (tag : Z)
| SStored (r : outcome (list Z * list slot)).

(** One round of the [match field_tag]: the first arm with this tag. *)
Fixpoint struct_step (slots : list slot) (tag : Z) (input : list Z) : step_res :=
  match slots with
  | [] => SUnknown
  | s :: rest =>
      let '(fd, p, cur) := s in
      if f_tag fd =? tag then
        if slot_free s
        then SStored (do (tail, v) <- p input; Ok (tail, (fd, p, Some v) :: rest))
        else SDuplicate (f_name fd) (f_dup fd)
      else match struct_step rest tag input with
           | SStored r => SStored (do (tail, rest') <- r; Ok (tail, s :: rest'))
           | x => x
           end
  end.

(** The field loop, e.g. src/versions/protocol87702/mod.rs:145-229. *)
Fixpoint struct_loop (fuel : nat) (m : build) (count : Z) (slots : list slot) (input : list Z)
  : outcome (list Z * list slot) :=
  if count =? 0 then Ok (input, slots)
  else match fuel with
       | O => Err (EOther "out of fuel")
       | S f =>
           do (tail, field_tag) <- parse_vlq_int m input;
           match struct_step slots field_tag tail with
           | SUnknown => Err (EUnknownTag field_tag)
           | SDuplicate n t => Err (EDuplicateTag n t)
           | SStored r => do (tail, slots') <- r; struct_loop f m (count - 1) slots' tail
           end
       end.

(** The struct literal, e.g. src/versions/protocol87702/mod.rs:230-238, 709-720. *)
Fixpoint struct_finish (slots : list slot) : outcome (list (string * val)) :=
  match slots with
  | [] => Ok []
  | (fd, _, cur) :: rest =>
      do v <- match cur, f_fin fd with
              | Some v, _ => Ok v
              | None, FinDefault d => Ok d
              | None, FinReq => Err (EMissingField (f_name fd))
              end;
      do vs <- struct_finish rest;
      Ok ((f_name fd, v) :: vs)
  end.

Definition unfld {A} (f : fld A) : fld unit :=
  mkfld (f_name f) (f_tag f) (f_dup f) (f_init f) (f_fin f) tt.

Definition init_slot (fd : fld unit) (p : parser val) : slot :=
  (fd, p, match f_init fd with InitNone => None | InitSomeNone => Some (VOpt None) end).

(** A whole struct, e.g. src/versions/protocol87702/mod.rs:136-243. *)
Definition parse_struct (m : build) (slots : list slot) (input : list Z) : outcome (list Z * val) :=
  do tail <- validate_tag STRUCT_TAG input;
  do (tail, count) <- parse_vlq_int m tail;
  do (tail, slots') <- struct_loop (S (length tail)) m (as_u64 count) slots tail;
  do fs <- struct_finish slots';
  Ok (tail, VStruct fs).

(** The [match variant_tag] of an enum or choice, e.g.
    src/versions/protocol87702/mod.rs:20-45. *)
Fixpoint find_variant {A} (l : list (Z * string * A)) (tag : Z) : option (string * A) :=
  match l with
  | [] => None
  | (t, n, a) :: l' => if t =? tag then Some (n, a) else find_variant l' tag
  end.

Fixpoint find_enum (l : list (Z * string)) (tag : Z) : option string :=
  match l with
  | [] => None
  | (t, n) :: l' => if t =? tag then Some n else find_enum l' tag
  end.

(** The meaning of a descriptor: the generated [parse] function. *)
Fixpoint vparse (m : build) (t : vty) (input : list Z) {struct t} : outcome (list Z * val) :=
  match t with
  | TInt it =>
      do (tail, r) <- tagged_vlq_int m input;
      if in_ity it r then Ok (tail, VInt r) else Err EValue
  | TBlob => do (tail, b) <- tagged_blob m input; Ok (tail, VBytes b)
  | TBool => do (tail, b) <- tagged_bool input; Ok (tail, VBool b)
  | TFourcc => do (tail, z) <- tagged_fourcc input; Ok (tail, VInt z)
  | TOpt t' =>
      do tail <- validate_tag OPT_TAG input;
      do (tail, is_provided) <- take_u8 tail;
      if negb (is_provided =? 0)
      then do (tail, v) <- vparse m t' tail; Ok (tail, VOpt (Some v))
      else Ok (tail, VOpt None)
  | TArray t' =>
      do tail <- validate_tag ARRAY_TAG input;
      do (tail, array_length) <- parse_vlq_int m tail;
      do (tail, vs) <- parse_n (S (length tail)) (vparse m t') (as_u64 array_length) tail;
      Ok (tail, VList vs)
  | TEnum l =>
      do tail <- validate_tag INT_TAG input;
      do (tail, variant_tag) <- parse_vlq_int m tail;
      match find_enum l variant_tag with
      | Some n => Ok (tail, VEnum n)
      | None => Err (EUnknownTag variant_tag)
      end
  | TChoice tag l =>
      do tail <- validate_tag tag input;
      do (tail, variant_tag) <- parse_vlq_int m tail;
      match find_variant (map (fun x => (fst x, vparse m (snd x))) l) variant_tag with
      | Some (n, p) => do (tail, v) <- p tail; Ok (tail, VChoice n v)
      | None => Err (EUnknownTag variant_tag)
      end
  | TStruct fs =>
      parse_struct m (map (fun f => init_slot (unfld f) (vparse m (f_ty f))) fs) input
  end.
