(** * C143: which JSON values are balance units *)
From Coq Require Import Permutation.
From Verif Require Import Base F32 Utf8 ConvertSpec Balance Archive Files BalanceFiles BalanceSpec BalanceFacts BalanceXml BalanceJson BalanceJsonSpec BalanceJsonFacts Program ProgramFacts Cli PropsCli PropsBalance PropsBalanceJson PropsProgram
  UnitView UnitViewSpec UnitViewFacts UnitJson UnitFileSpec UnitFileFacts UnitRows UnitFileRun PropsUnitView.
#[local] Open Scope string_scope.
#[local] Open Scope Z_scope.
#[local] Open Scope list_scope.

(** A JSON value is read as a unit exactly if, once the values of arrays in place
    of objects have their names, every object in it has the members it must have,
    and no member twice, of the right kinds. *)
Theorem C143_rules : forall j, (exists v, from_value j_unit j = Some v) <-> unit_json (by_name j).
Proof. exact all_readable. Qed.
Print Assumptions C143_rules.
(** Without such arrays the value is as it was; with one it keeps no rules. *)
Theorem C143_objects : forall j, objects_only j -> by_name j = j.
Proof. exact objects_named. Qed.
Print Assumptions C143_objects.
Theorem C143_rules_objects : forall j, unit_json j <-> objects_only j /\ exists v, from_value j_unit j = Some v.
Proof. intros j. rewrite <- unit_readable. tauto. Qed.
Print Assumptions C143_rules_objects.
(** An array is read as the object that has its values in the order of the table;
    the nine last ones may be left out. *)
Theorem C143_arrays : forall l, from_value j_unit (JArr l) =
  if ((12 <=? length l) && (length l <=? 21))%nat then from_value j_unit (JObj (combine (match unit_objects with (_, ms) :: _ => map me_name ms | [] => [] end) l)) else None.
Proof. exact unit_arrays. Qed.
Print Assumptions C143_arrays.
(** What the library writes keeps to the rules if its floats are numbers. *)
Theorem C143_written : forall v, is_unit v -> finite v -> unit_json (to_value j_unit v).
Proof. intros v H F. exact (written_rules v H F). Qed.
Print Assumptions C143_written.

(** A run gets its balance data exactly if every file keeps to the rules; one that
    does not ends every command before it does anything. *)
Theorem C143_program : forall (os : outside jval) parse (order : dir_order) ds a d, os_dec os = unit_of_text parse -> good_disk d -> balance_files os order ds a d ->
  ((exists m, balance_data os order ds a = Ok m) <-> forall k s f c, unit_file d k s f c -> exists j, parse c = Some j /\ unit_json (by_name j)) /\
  (forall k s f c, unit_file d k s f c -> (forall j, parse c = Some j -> ~ unit_json (by_name j)) -> forall order', exists e, process os order order' ds a = (Err e, [], ds)).
Proof. exact files_rules. Qed.
Print Assumptions C143_program.

(** A unit of the repository; a unit without one of the members; with one twice;
    with a null where none may be; with a number too large; with what nothing
    asks for. *)
Definition without (k : string) (m : list (string * json)) : list (string * json) := filter (fun e => negb (String.eqb (fst e) k)) m.
Definition v_members : list (string * json) := match v_unit with JObj m => m | _ => [] end.
Definition v_with (k : string) (j : json) : json := JObj (without k v_members ++ [(k, j)]).
Example C143_example : unit_json uj_Zealot /\ unit_json v_unit /\ unit_json (v_with "requires" (JObj [("unit", JArr [])])) /\ unit_json (JObj (("colour", JNull) :: v_members)) /\ unit_json (v_with "shields" JNull) /\
  Forall (fun j => ~ unit_json j) [
    JObj (without "life" v_members);
    JObj (("@id", JStr "Again") :: v_members);
    v_with "armor" JNull;
    v_with "requires" JNull;
    v_with "requires" (JObj [("unit", JArr [JObj [("@id", JStr "Barracks")]])]);
    v_with "score" (JObj [("@kill", JInt (2 ^ 32))]);
    v_with "abilities" (JObj [("ability", JArr [JObj [("@id", JStr "stop"); ("command", JArr [JObj [("@index", JInt 0)]])]])]);
    JArr []].
Proof.
  assert (Y : forall j, (match read_json false j_unit j with Some _ => true | None => false end) = true -> unit_json j).
  { intros j E. apply strict_readable. destruct (read_json false j_unit j) as [v|]; [eauto|discriminate]. }
  assert (N : forall j, (match read_json false j_unit j with Some _ => true | None => false end) = false -> ~ unit_json j).
  { intros j E H. apply strict_readable in H as (v & H). rewrite H in E. discriminate. }
  repeat (split; [apply Y; vm_compute; reflexivity|]). repeat constructor; apply N; vm_compute; reflexivity.
Qed.

(** The members of the unit in order, then without the nine last; and two that are
    too short or too long. *)
Definition v_row : list json := map (fun k => match jvalues k v_members with x :: _ => x | [] => match k with "shields" | "cost" | "researches" | "movement" | "producer" => JNull | _ => JObj [] end end)
  (match unit_objects with (_, ms) :: _ => map me_name ms | [] => [] end).
Example C143_rows : (exists v, from_value j_unit (JArr v_row) = Some v /\ from_value j_unit v_unit = Some v) /\ ~ objects_only (JArr v_row) /\ (exists v, from_value j_unit (JArr (firstn 12 v_row)) = Some v) /\
  from_value j_unit (JArr (firstn 11 v_row)) = None /\ from_value j_unit (JArr (v_row ++ [JNull])) = None.
Proof.
  split; [|split; [intros [A _]; exact (A _ eq_refl)|split; [|split; vm_compute; reflexivity]]].
  - assert (X : match from_value j_unit v_unit with Some _ => True | None => False end) by (vm_compute; exact Logic.I). destruct (from_value j_unit v_unit) as [v|] eqn:E; [|destruct X]. exists v. split; [|reflexivity]. rewrite <- E. vm_compute. reflexivity.
  - assert (X : match from_value j_unit (JArr (firstn 12 v_row)) with Some _ => True | None => False end) by (vm_compute; exact Logic.I). destruct (from_value j_unit (JArr (firstn 12 v_row))) as [v|]; [eauto|destruct X].
Qed.
(** An array for the object meta, of eight values and of seven; an array for an
    ability. *)
Definition v_row_meta (n : nat) : json := JArr ([JStr ""; JStr ""] ++ repeat JNull n).
Example C143_inner_rows : by_name (v_with "meta" (v_row_meta 6)) <> v_with "meta" (v_row_meta 6) /\ unit_json (by_name (v_with "meta" (v_row_meta 6))) /\ ~ unit_json (by_name (v_with "meta" (v_row_meta 5))) /\
  unit_json (by_name (v_with "abilities" (JArr [JArr [JArr [JStr "stop"; JInt 4; JArr [JArr [JNull; JInt 0; v_meta]]]]]))) /\
  at_path ["abilities"; "ability"; "command"; "@index"] (by_name (v_with "abilities" (JArr [JArr [JArr [JStr "stop"; JInt 4; JArr [JArr [JNull; JInt 7; v_meta]]]]]))) = [JInt 7].
Proof.
  assert (Y : forall j, (match from_value j_unit j with Some _ => true | None => false end) = true -> unit_json (by_name j)).
  { intros j E. apply all_readable. destruct (from_value j_unit j) as [v|]; [eauto|discriminate]. }
  assert (N : forall j, (match from_value j_unit j with Some _ => true | None => false end) = false -> ~ unit_json (by_name j)).
  { intros j E H. apply all_readable in H as (v & H). rewrite H in E. discriminate. }
  split; [vm_compute; discriminate|]. split; [apply Y; vm_compute; reflexivity|]. split; [apply N; vm_compute; reflexivity|]. split; [apply Y|]; vm_compute; reflexivity.
Qed.
