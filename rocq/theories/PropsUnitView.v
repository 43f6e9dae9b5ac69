(** * C142: the radius and the commands of a unit are those of its JSON file *)
From Coq Require Import Permutation.
From Verif Require Import Base F32 Utf8 ConvertSpec Balance Archive Files BalanceFiles BalanceSpec BalanceJson BalanceJsonSpec Program Cli PropsCli PropsBalance PropsBalanceJson PropsProgram CameraBoxSpec UnitFileSpec UnitFileFacts UnitRows UnitView UnitViewSpec UnitViewFacts.
#[local] Open Scope string_scope.
#[local] Open Scope Z_scope.
#[local] Open Scope list_scope.

(** A unit that can be read from [j] gives events the radius at misc/@radius and
    the names of the commands that [j] lists.  ([by_name] gives the values of an
    array in place of an object their names; without such arrays it is [j].) *)
Theorem C142_unit : forall j v, from_value j_unit j = Some v -> says (by_name j) (unit_view v).
Proof. exact unit_says. Qed.
Print Assumptions C142_unit.
Theorem C142_objects : forall j v, from_value j_unit j = Some v -> objects_only j -> says j (unit_view v).
Proof. intros j v E O. rewrite <- (objects_named j O). exact (unit_says j v E). Qed.
Print Assumptions C142_objects.
(** No text but one is the name of a command. *)
Theorem C142_one_name : forall a i l, exists! s, command_named a i l s.
Proof.
  intros a i l. eexists. split; [apply first_command_named|]. intros s H. exact (command_named_one _ _ _ _ _ (first_command_named a i l) H).
Qed.
Print Assumptions C142_one_name.

(** Whatever files a run has, built in or in the directory: the balance data of
    the replays of the version [ver] are what its files say, and no file is left
    out. *)
Theorem C142_program : forall (os : outside jval) parse (order : dir_order) ds a d m, os_dec os = unit_of_text parse -> os_view os = unit_view -> good_disk d -> balance_files os order ds a d ->
  balance_data os order ds a = Ok m ->
  (forall ver n u, sget n (balance_of_version ver (viewed os m)) = Some u -> exists s f c j, unit_file d (ver, n) s f c /\ parse c = Some j /\ says (by_name j) u) /\
  (forall ver n s f c, unit_file d (ver, n) s f c -> sget n (balance_of_version ver (viewed os m)) <> None).
Proof. exact loaded_says. Qed.
Print Assumptions C142_program.
(** Every radius is one an [f32] can have. *)
Theorem C142_floats : forall (os : outside jval) parse (order : dir_order) ds a d m ver, os_dec os = unit_of_text parse -> os_view os = unit_view -> good_disk d -> balance_files os order ds a d ->
  balance_data os order ds a = Ok m -> float_radii (balance_of_version ver (viewed os m)).
Proof. intros os parse order ds a d m ver H1 H2 H3 H4 H5. exact (loaded_floats os parse order ds a d m H1 H2 H3 H4 H5 ver). Qed.
Print Assumptions C142_floats.

(** A unit with a radius of 0.375, two abilities with the same number, a training
    whose number is missing and a research; the files of PropsBalance.v, all with
    this text. *)
Definition v_meta : json := JObj [("@name", JStr ""); ("@tooltip", JStr "")].
Definition v_pair : json := JObj [("@start", JInt 1); ("@max", JInt 2)].
Definition v_command (i : Z) (id : list (string * json)) : json := JObj (id ++ [("@index", JInt i); ("meta", v_meta)]).
Definition v_cost : json := JObj [].
Definition v_unit : json := JObj [("@id", JStr "Marine"); ("meta", v_meta); ("life", v_pair); ("armor", v_pair); ("shieldArmor", v_pair); ("score", JObj []);
  ("misc", JObj [("@radius", JFloat (S754_finite false 3 (-3)))]);
  ("abilities", JObj [("ability", JArr [
    JObj [("@id", JStr "stop"); ("@index", JInt 4); ("command", JArr [v_command 0 [("@id", JStr "Stop")]; v_command 2 []])];
    JObj [("@id", JStr "none"); ("command", JArr [v_command 0 []])];
    JObj [("@id", JStr "other"); ("@index", JInt 4); ("command", JArr [v_command 0 [("@id", JStr "Late")]; v_command 1 [("@id", JNull)]])]])]);
  ("trains", JObj [("unit", JArr [JObj [("@id", JStr "Half"); ("@ability", JInt 4); ("@index", JNull)]; JObj [("@id", JStr "SCV"); ("@ability", JInt 9); ("@index", JInt 1)]])]);
  ("researches", JObj [("upgrade", JArr [JObj [("@id", JStr "Stim"); ("@ability", JInt 4); ("@index", JInt 3); ("meta", v_meta); ("cost", v_cost)]])])].
Definition v_outside : outside jval :=
  mk_outside jval (fun _ => []) (unit_of_text (fun _ => Some v_unit)) (fun _ => "") (fun _ => None) unit_view (assets_of ex_disk) (os_generate ex_outside)
    (os_machine ex_outside) (os_tree ex_outside) (os_world ex_outside) (os_path ex_outside) (os_is_dir ex_outside) (os_creates ex_outside) (os_arrival ex_outside) (os_walk ex_outside).
Definition v_args : program_args := mk_args "x" "" "" None CmdScan no_options.
Example C142_example : good_disk ex_disk /\ balance_files v_outside as_is only_x v_args ex_disk /\ unit_file ex_disk (80949, "Marine") "80949" "Marine.json" [1; 7] /\
  file_commands v_unit = [(4, 0, "stop.Stop"); (4, 2, "stop."); (4, 0, "other.Late"); (4, 1, "other."); (9, 1, "Train.SCV"); (4, 3, "Research.Stim")] /\
  exists m, balance_data v_outside as_is only_x v_args = Ok m /\ option_map bu_radius (sget "Marine" (balance_of_version 80949 (viewed v_outside m))) = Some (Some (f32_div (f32_of_int 3) (f32_of_int 8))) /\
    map (get_indexed_ability_command_name (balance_of_version 80949 (viewed v_outside m)) "Marine" 4) [0; 1; 2; 3; 4] = ["stop.Stop"; "other."; "stop."; "Research.Stim"; ""].
Proof.
  destruct C116_built_in_ex as (G & _ & _ & _ & F). split; [exact G|]. split; [left; split; [reflexivity|apply Permutation_refl]|]. split; [exact F|]. split; [vm_compute; reflexivity|].
  eexists. split; [vm_compute; reflexivity|]. split; vm_compute; reflexivity.
Qed.
