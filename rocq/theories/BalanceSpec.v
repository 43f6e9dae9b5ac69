(** * What is said of balance data on disk *)
From Coq Require Import Ascii Permutation.
From Verif Require Import Base ConvertSpec Files BalanceFiles.
#[local] Open Scope string_scope.
#[local] Open Scope Z_scope.
#[local] Open Scope list_scope.

(** ** Texts *)
Definition contains (c : ascii) (s : string) : Prop := In c (list_ascii_of_string s).
Definition ends_with (suffix s : string) : Prop := exists p, s = (p ++ suffix)%string.
Fixpoint times (n : nat) (s : string) : string := match n with O => "" | Datatypes.S n' => (s ++ times n' s)%string end.
(** [n] is [f] without the endings [.json]. *)
Definition bare_name (f n : string) : Prop := ~ ends_with ".json" n /\ exists j, f = (n ++ times j ".json")%string.
(** The value of a sequence of digits. *)
Fixpoint digits (l : list ascii) (acc v : Z) : Prop :=
  match l with [] => v = acc | c :: l' => 48 <= Z_of_ascii c <= 57 /\ digits l' (10 * acc + (Z_of_ascii c - 48)) v end.
(** [s] is a numeral of [v]: digits, perhaps after a plus sign; zeros in front do
    not matter. *)
Definition numeral (s : string) (v : Z) : Prop :=
  v < two32 /\ exists l, l <> [] /\ digits l 0 v /\ (list_ascii_of_string s = l \/ list_ascii_of_string s = "+"%char :: l).
(** A unit name that a file name can hold: no slash, no zero byte, and it does not
    end in [.json]. *)
Definition plain (n : string) : Prop := ~ contains "/" n /\ ~ contains "000" n /\ ~ ends_with ".json" n.

(** ** Disks *)
(** Every path once, inside directories that are there; names are not empty and
    have no slash. *)
Definition good_disk (d : disk) : Prop :=
  NoDup (map fst d) /\ Forall (fun e => fst e <> [] /\ Forall (fun n => n <> "" /\ ~ contains "/" n) (fst e)) d /\
  forall p n x, In (p ++ [n], x) d -> p = [] \/ In (p, DDir) d.
(** The file [f] in the directory [s] is the unit [k]. *)
Definition unit_file (d : disk) (k : Z * string) (s f : string) (c : list Z) : Prop :=
  In ([s; f], DFile c) d /\ numeral s (fst k) /\ bare_name f (snd k).
(** No two files are the same unit. *)
Definition no_clash (d : disk) : Prop := forall k s f c s' f' c', unit_file d k s f c -> unit_file d k s' f' c' -> s = s' /\ f = f'.
(** A way to list directories. *)
Definition lists (order : path -> list (string * dnode) -> list (string * dnode)) : Prop := forall p l, Permutation l (order p l).
(** The file [f] in [s/BalanceData] is an XML file. *)
Definition xml_file (d : disk) (v : Z) (s f : string) (c : list Z) : Prop :=
  In ([s; "BalanceData"], DDir) d /\ In ([s; "BalanceData"; f], DFile c) d /\ numeral s v /\ exists b, b <> "" /\ f = (b ++ ".xml")%string.
(** The file [f] in [s/BalanceData] is an XML file of the unit [u], whose version is
    the name of the directory and whose name is the identifier in the unit. *)
Definition xml_unit {U} (id_of : U -> string) (xml : list Z -> option U) (d : disk) (k : Z * string) (u : U) (s f : string) : Prop :=
  exists c, xml_file d (fst k) s f c /\ xml c = Some u /\ id_of u = snd k.
(** What was last written for [k]. *)
Fixpoint last_written {U} (k : Z * string) (runs : list (units U)) : option U :=
  match runs with
  | [] => None
  | m :: runs' => match last_written k runs' with Some u => Some u | None => uget k m end
  end.
(** Calls of [write_balance_data_to_json] one after the other, until one fails. *)
Fixpoint write_runs {U} (enc : U -> list Z) (runs : list (units U)) (d : disk) : outcome unit * disk :=
  match runs with
  | [] => (Ok tt, d)
  | m :: runs' => match write_json enc m d with (Ok _, d') => write_runs enc runs' d' | (o, d') => (o, d') end
  end.
(** A map whose names files can hold. *)
Definition storable {U} (m : units U) : Prop := NoDup (map fst m) /\ Forall (fun e => 0 <= fst (fst e) < two32 /\ plain (snd (fst e))) m.
