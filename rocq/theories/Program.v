(** * The command line program

    examples/cli/mod.rs:196-310 [process_cli_request] and examples/full.rs [main].
    Not modelled: the parsing of the arguments (clap; [--source] must always be
    given), logging, timing and [--tui] (Viewer.v).  The generator of decoders as
    a whole (src/generator/proto_morphist.rs:369-380 [gen]; modelled in
    GenerateRun.v) and the codecs of units are parameters. *)
From Verif Require Import Base Types Utf8 ConvertSpec Tags Balance DetailsData State Files Archive Cli BalanceFiles.
#[local] Open Scope string_scope.
#[local] Open Scope Z_scope.
#[local] Open Scope list_scope.

(** Model of examples/cli/mod.rs:66-88 [Commands] and 22-26 [CommandUtils]. *)
Inductive command :=
| CmdGenerate | CmdToJson | CmdScan | CmdGet (r : read_type) | CmdExport (c : ipc_props) | CmdTag (tag : Z).
(** Model of examples/cli/mod.rs:90-170 [Cli]; [ag_options]: those of [get]. *)
Record program_args := mk_args {
  ag_source : string; ag_xml : string; ag_json : string; ag_output : option string; ag_command : command; ag_options : cli }.
(** Directories by the text of their path; none of those named lies inside
    another.  [None]: there is no directory of this name. *)
Definition dirs : Type := string -> option disk.
Definition put_dir (s : string) (d : disk) (ds : dirs) : dirs := fun s' => if String.eqb s' s then Some d else ds s'.
(** What a run shows or leaves behind, but for JSON files.  [FGenerated]: the
    generator was run, well or not; what it leaves is in GenerateRun.v. *)
Inductive effect :=
| FPrinted (l : list token) | FTag (index recycle : Z) | FArrow (l : list arrow_file) | FStats (s : dir_stats) | FGenerated (source output : string).
Definition run_result : Type := outcome unit * list effect * dirs.

(** What is fixed around a run: the codecs of units and the part of a unit that
    the other models use, the included assets, the generator, the replays, and
    the orders in which threads and hash maps happen to go.  [os_path]:
    [PathBuf::from] a text; [os_is_dir], [os_creates]: whether the output is a
    directory, and which files can be created there. *)
Record outside (U : Type) := mk_outside {
  os_enc : U -> list Z; os_dec : list Z -> option U; os_id : U -> string; os_xml : list Z -> option U; os_view : U -> bal_unit;
  os_assets : list (string * list Z); os_generate : string -> string -> outcome unit;
  os_machine : machine; os_tree : tree; os_world : world;
  os_path : string -> path; os_is_dir : string -> bool; os_creates : string -> string -> bool;
  os_arrival : table_name -> list full_init -> list full_init; os_walk : list (string * Z) -> list (string * Z) }.
Arguments os_enc {U}. Arguments os_dec {U}. Arguments os_id {U}. Arguments os_xml {U}. Arguments os_view {U}. Arguments os_assets {U}. Arguments os_generate {U}.
Arguments os_machine {U}. Arguments os_tree {U}. Arguments os_world {U}. Arguments os_path {U}. Arguments os_is_dir {U}. Arguments os_creates {U}. Arguments os_arrival {U}. Arguments os_walk {U}.
Definition dir_order : Type := path -> list (string * dnode) -> list (string * dnode).

Section Program.
  Context {U : Type}.
  Variable os : outside U.
  (** Model of examples/cli/mod.rs:243-248, and again cmd_get.rs:35-40. *)
  Definition balance_data (order : dir_order) (ds : dirs) (a : program_args) : outcome (units U) :=
    if String.eqb (ag_json a) "" then read_assets (os_dec os) (os_assets os) []
    else match ds (ag_json a) with
         | None => Err (EOther "io")
         | Some d => read_json_dir (os_dec os) order d
         end.
  Definition viewed (m : units U) : all_balance := map (fun e => (fst e, os_view os (snd e))) m.
  (** An error or a panic of [x] ends the run with no effect. *)
  Definition use_run {A} (ds : dirs) (x : outcome A) (f : A -> run_result) : run_result :=
    match x with Ok a => f a | Err e => (Err e, [], ds) | Panic => (Panic, [], ds) end.
  (** Model of examples/cli/mod.rs:261-280: the arm of [BalanceDataToJson]. *)
  Definition to_json (order : dir_order) (ds : dirs) (a : program_args) : run_result :=
    if String.eqb (ag_source a) "" then (Err (EOther "invalid input"), [], ds)
    else if String.eqb (ag_json a) "" then (Err (EOther "invalid input"), [], ds)
    else use_run ds (traverse_xml (os_id os) (os_xml os) order (ds (ag_source a))) (fun m =>
           let (o, d) := write_json (os_enc os) m (match ds (ag_json a) with Some d => d | None => [] end) in
           (o, [], put_dir (ag_json a) d ds)).
  (** Model of examples/cli/mod.rs:196-310 [process_cli_request]; [order] lists
      directories the first time they are read, [order'] the second. *)
  Definition process (order order' : dir_order) (ds : dirs) (a : program_args) : run_result :=
    use_run ds (balance_data order ds a) (fun m =>
      match ag_command a with
      | CmdGenerate =>
          match ag_output a with
          | None => (Panic, [], ds)
          | Some out => (os_generate os (ag_source a) out, [FGenerated (ag_source a) out], ds)
          end
      | CmdToJson => to_json order' ds a
      | CmdGet r =>
          use_run ds (balance_data order' ds a) (fun m' =>
            let (o, l) := handle_get_cmd (os_machine os) (os_tree os) (os_world os) (viewed m') (ag_options a) r (os_path os (ag_source a)) in (o, [FPrinted l], ds))
      | CmdExport c =>
          match ag_output a with
          | None => (Panic, [], ds)
          | Some out => let (o, l) := export_replays (os_machine os) (os_tree os) (os_world os) (viewed m) (os_is_dir os out) (os_creates os out) (os_arrival os) (os_path os (ag_source a)) c in (o, [FArrow l], ds)
          end
      | CmdTag tag => (Ok tt, [FTag (unit_tag_index tag) (unit_tag_recycle tag)], ds)
      | CmdScan => use_run ds (scan_path (mc_build (os_machine os)) (os_tree os) (os_world os) (viewed m) (os_walk os) (os_path os (ag_source a))) (fun s => (Ok tt, [FStats s], ds))
      end).
  (** Model of examples/full.rs:16-19 [main]: [unwrap]. *)
  Definition main_run (order order' : dir_order) (ds : dirs) (a : program_args) : run_result :=
    let '(o, l, ds') := process order order' ds a in (match o with Ok _ => Ok tt | _ => Panic end, l, ds').
End Program.
