(** * What a protocol description means on the wire, versioned format

    Blizzard's format of a declaration: which bytes encode which value.  Only
    the type of descriptions is taken from the model of the generator. *)
From Verif Require Import Base VlqSpec Types VersionedSpec Generator ByteGen.
#[local] Open Scope string_scope.
#[local] Open Scope Z_scope.
#[local] Open Scope list_scope.

(** A field as written: its name and type, the bytes of its tag, its value and
    the bytes of its value. *)
Record ywritten : Type := mkyw { yw_fld : string * option Z * ytype; yw_tag : list Z; yw_val : val; yw_bytes : list Z }.

(** The value of a field after [ws] was written; an optional that is not
    written is [None]. *)
Definition yfield_value (ws : list ywritten) (f : string * option Z * ytype) (v : val) : Prop :=
  (exists w, In w ws /\ yw_fld w = f /\ yw_val w = v) \/
  ((forall w, In w ws -> yw_fld w <> f) /\ (exists t, snd f = YOpt t) /\ v = VOpt None).

(** [g] is the variable-length number [z], up to ten bytes; any 64-bit number,
    signed or not, has one. *)
Definition vlq_number (z : Z) (g : list Z) : Prop := bytes_ok g /\ vlq_terminated g /\ (length g <= 10)%nat /\ z = vlq_value g.

(** [yenc t v bs]: [bs] encodes [v], a value of [t].  Bit arrays are left out. *)
Inductive yenc : ytype -> val -> list Z -> Prop :=
| yenc_int : forall lo hi z g, lo <= z <= hi -> vlq_number z g -> yenc (YInt lo hi) (VInt z) (INT_TAG :: g)
| yenc_blob : forall t l g, In t [YBlob; YString; YAscii] -> bytes_ok l -> vlq_rep true (Z.of_nat (length l)) g ->
    yenc t (VBytes l) (BLOB_TAG :: g ++ l)
| yenc_bool : forall b x, byte_ok x -> (b = true <-> x <> 0) -> yenc YBool (VBool b) [BOOL_TAG; x]
| yenc_fourcc : forall a b c d, bytes_ok [a; b; c; d] ->
    yenc YFourcc (VInt (a * 2 ^ 24 + b * 2 ^ 16 + c * 2 ^ 8 + d)) [FOURCC_TAG; a; b; c; d]
| yenc_null : yenc YNull VNull []
| yenc_none : forall t, yenc (YOpt t) (VOpt None) [OPT_TAG; 0]
| yenc_some : forall t x v bs, byte_ok x -> x <> 0 -> yenc t v bs -> yenc (YOpt t) (VOpt (Some v)) (OPT_TAG :: x :: bs)
| yenc_array : forall dyn t g vs bss, vlq_rep true (Z.of_nat (length vs)) g -> Forall2 (yenc t) vs bss ->
    yenc (YArray dyn t) (VList vs) (ARRAY_TAG :: g ++ concat bss)
| yenc_user : forall n t v bs, yenc t v bs -> yenc (YUser n t) v bs
| yenc_enum : forall l z n g, In (z, n) l -> vlq_rep true z g -> yenc (YEnum l) (VEnum n) (INT_TAG :: g)
| yenc_event : forall l z n t v g bs, In (z, n, Some t) l -> vlq_rep true z g -> yenc t v bs ->
    yenc (YEvents l) (VChoice n v) (INT_TAG :: g ++ bs)
| yenc_event_alone : forall l z n g, In (z, n, None) l -> vlq_rep true z g -> yenc (YEvents l) (VChoice n VNull) (INT_TAG :: g)
| yenc_choice : forall l z n t v g bs, In (z, n, t) l -> vlq_rep true z g -> yenc t v bs ->
    yenc (YChoice l) (VChoice n v) (CHOICE_TAG :: g ++ bs)
| yenc_struct : forall consts fs ws g vals,
    vlq_rep true (Z.of_nat (length ws)) g ->
    Forall (fun w => In (yw_fld w) fs /\ (exists z, snd (fst (yw_fld w)) = Some z /\ vlq_rep true z (yw_tag w)) /\
                     yenc (snd (yw_fld w)) (yw_val w) (yw_bytes w)) ws ->
    NoDup (map yw_fld ws) ->
    Forall2 (fun f nv => fst nv = fst (fst f) /\ yfield_value ws f (snd nv)) fs vals ->
    yenc (YStruct consts fs) (VStruct vals) (STRUCT_TAG :: g ++ concat (map (fun w => yw_tag w ++ yw_bytes w) ws)).

(** ** The descriptions the generator gets right *)

(** The names the generator knows as integers, and the range of the Rust type
    it gives them, less what the crate's own reader of numbers cannot read
    (C02); as byte strings, as lists of those; and as types of their
    own. *)
Definition int_names : list (string * Z * Z) := [
  ("NNet.uint8", 0, 2 ^ 8 - 1); ("NNet.uint6", 0, 2 ^ 8 - 1); ("NNet.Game.TPlayerId", 0, 2 ^ 8 - 1); ("NNet.Game.TControlId", 0, 2 ^ 8 - 1);
  ("NNet.Game.TTeamId", 0, 2 ^ 8 - 1); ("NNet.Replay.Tracker.TUIntMiniBits", 0, 2 ^ 8 - 1); ("NNet.Replay.EReplayType", 0, 2 ^ 8 - 1);
  ("NNet.uint14", 0, 2 ^ 32 - 1); ("NNet.uint22", 0, 2 ^ 32 - 1); ("NNet.uint32", 0, 2 ^ 32 - 1); ("NNet.Game.TDifficulty", 0, 2 ^ 32 - 1);
  ("NNet.Game.THandicap", 0, 2 ^ 32 - 1); ("NNet.uint64", 0, 2 ^ 63 - 1);
  ("NNet.int32", - 2 ^ 31, 2 ^ 31 - 1); ("NNet.Game.TFixedBits", - 2 ^ 31, 2 ^ 31 - 1); ("NNet.Game.TColorId", 1 - 2 ^ 63, 2 ^ 63 - 1);
  ("NNet.int64", 1 - 2 ^ 63, 2 ^ 63 - 1)].
Definition text_names : list string := ["NNet.Replay.CSignature"; "NNet.Replay.Tracker.CatalogName"; "NNet.Game.CCacheHandle"; "NNet.CFilePath"; "NNet.CUserName"].
Definition text_list_names : list string := ["NNet.Game.CCacheHandles"; "NNet.Game.CModPaths"].
Definition own_names : list string := ["NNet.SVersion"; "NNet.SMD5"; "NNet.EObserve"; "NNet.Game.EResultDetails"; "NNet.Replay.Tracker.SPlayerStats";
  "NNet.Game.SThumbnail"; "NNet.Game.EGameSpeed"; "NNet.Game.SToonNameDetails"; "NNet.Game.SColor"].

(** What a name stands for in the end. *)
Fixpoint resolved (t : ytype) : ytype := match t with YUser _ t' => resolved t' | _ => t end.

Definition among (n : string) (l : list string) : bool := existsb (String.eqb n) l.
Definition int_named (n : string) (t : ytype) : bool :=
  match resolved t with
  | YInt lo hi => existsb (fun x => (n =? fst (fst x))%string && (snd (fst x) <=? lo) && (hi <=? snd x)) int_names
  | _ => false
  end.
Definition is_text (t : ytype) : bool := match resolved t with YBlob | YString => true | _ => false end.
Definition is_texts (t : ytype) : bool := match resolved t with YArray _ e => is_text e | _ => false end.

(** A value inside a struct or a choice whose type has the name [n], declared
    as [t]; [decl] says which declarations are right themselves. *)
Definition plain_named (decl : ytype -> bool) (n : string) (t : ytype) : bool :=
  int_named n t || among n text_names && is_text t || among n own_names && decl t.
(** A value that is no list, and a list. *)
Definition plain_one (decl : ytype -> bool) (t : ytype) : bool :=
  match t with YBlob | YString | YBool | YFourcc => true | YUser n t' => plain_named decl n t' | _ => false end.
Definition plain_many (decl : ytype -> bool) (t : ytype) : bool :=
  match t with
  | YUser n t' =>
      among n text_list_names && is_texts t' ||
      (n =? "NNet.Game.CPlayerDetailsArray")%string &&
        match t' with YArray _ (YUser n' e) => (n' =? "NNet.Game.SPlayerDetails")%string && decl e | _ => false end
  | YArray false (YUser n e) => plain_named decl n e
  | _ => false
  end.
Definition plain_field (decl : ytype -> bool) (t : ytype) : bool :=
  match t with YOpt t' => plain_one decl t' || plain_many decl t' | _ => plain_one decl t || plain_many decl t end.

(** A declaration. *)
Fixpoint yplain (t : ytype) {struct t} : bool :=
  match t with
  | YInt lo hi => (- two63 <? lo) && (hi <? two63)
  | YArray _ (YUser _ t') => yplain t'
  | YEnum vs => nodupb (map fst vs)
  | YEvents vs => nodupb (map (fun x => fst (fst x)) vs) && forallb (fun x => match snd x with Some t' => yplain t' | None => false end) vs
  | YChoice vs => nodupb (map (fun x => fst (fst x)) vs) && forallb (fun x => plain_one yplain (snd x)) vs
  | YStruct consts fs =>
      negb (Nat.eqb consts 1 && Nat.eqb (length fs) 0) &&
      forallb (fun f => match snd (fst f) with Some _ => true | None => false end) fs &&
      nodupb (map (fun f => match snd (fst f) with Some z => z | None => 0 end) fs) &&
      forallb (fun f => plain_field yplain (snd f)) fs
  | _ => false
  end.

(** A decoder reads a format: every encoding gives the value back, whatever
    follows it. *)
Definition yreads (k : ycode) (t : ytype) : Prop :=
  forall m v bs rest, yenc t v bs -> yrun m k (bs ++ rest) = Ok (rest, v).
