(** * What is said of the program *)
From Verif Require Import Base ConvertSpec Files BalanceFiles BalanceSpec Utf8 Archive Cli Program.
#[local] Open Scope string_scope.
#[local] Open Scope Z_scope.
#[local] Open Scope list_scope.

(** The directory [x] of XML files has the unit [k]. *)
Definition has_unit {U} (os : outside U) (x : option disk) (k : Z * string) (u : U) : Prop :=
  exists d s f, x = Some d /\ xml_unit (os_id os) (os_xml os) d k u s f.
(** [u] is the unit [k] of the last of these directories that has one. *)
Fixpoint latest {U} (os : outside U) (k : Z * string) (u : U) (xs : list (option disk)) : Prop :=
  match xs with
  | [] => False
  | x :: xs' => latest os k u xs' \/ (~ (exists u', latest os k u' xs') /\ has_unit os x k u)
  end.
(** One run of [balance-data-to-json --source s -j json]: what else is on the disk
    then, the other arguments, and the orders in which directories are listed. *)
Record conversion := mk_conversion { cv_args : program_args; cv_dirs : dirs; cv_order : dir_order; cv_order' : dir_order }.
Definition cv_xml (c : conversion) : option disk := cv_dirs c (ag_source (cv_args c)).
(** Such runs one after the other, all successful: from the contents [d] of the
    JSON directory to [d']. *)
Inductive converts {U} (os : outside U) (json : string) : disk -> list conversion -> disk -> Prop :=
| converts_none : forall d, converts os json d [] d
| converts_run : forall d c l d1 d' ds,
    process os (cv_order c) (cv_order' c) (put_dir json d (cv_dirs c)) (cv_args c) = (Ok tt, [], ds) -> ds json = Some d1 ->
    converts os json d1 l d' -> converts os json d (c :: l) d'.
(** A conversion that can succeed: the arguments are right, the XML files are
    texts with names that files can hold and units that survive JSON, and no unit
    is in two files. *)
Definition fine_conversion {U} (os : outside U) (json : string) (c : conversion) : Prop :=
  lists (cv_order c) /\ lists (cv_order' c) /\
  ag_command (cv_args c) = CmdToJson /\ ag_json (cv_args c) = json /\ ag_source (cv_args c) <> "" /\ ag_source (cv_args c) <> json /\
  (forall d, cv_xml c = Some d -> good_disk d /\ (forall v s f b, xml_file d v s f b -> utf8_ok b = true) /\
     (forall k u s f, xml_unit (os_id os) (os_xml os) d k u s f -> plain (snd k) /\ os_dec os (os_enc os u) = Some u) /\
     (forall k u s f u' s' f', xml_unit (os_id os) (os_xml os) d k u s f -> xml_unit (os_id os) (os_xml os) d k u' s' f' -> u = u')).
(** The JSON directory cannot be read: it is not there, or a unit file in it is
    not a unit. *)
Definition bad_json {U} (os : outside U) (ds : dirs) (json : string) : Prop :=
  json <> "" /\ (ds json = None \/ exists d k s f c, ds json = Some d /\ good_disk d /\ unit_file d k s f c /\ os_dec os c = None).
