(** * Balance data on disk

    src/game_events/ability/balance_data/json_handler.rs and mod.rs:13-76.  The
    encoding of a unit as JSON and its decoding from JSON and XML (serde,
    external) are parameters.  File names are valid UTF-8 (the code replaces other
    bytes of a name before it looks at it), the disk has no links and reading and
    writing do not fail but for the reasons given. *)
From Coq Require Import Ascii.
From Verif Require Import Base Utf8 Convert ConvertSpec DetailsData Files.
#[local] Open Scope string_scope.
#[local] Open Scope Z_scope.
#[local] Open Scope list_scope.

(** ** Text (std, external) *)
(** [Display] of [u32]. *)
Fixpoint show_digits (n : nat) (v : Z) (acc : string) : string :=
  match n with
  | O => acc
  | Datatypes.S n' => let acc' := String (ascii_of_Z (48 + v mod 10)) acc in if v <? 10 then acc' else show_digits n' (v / 10) acc'
  end.
Definition show_u32 (v : Z) : string := show_digits 10 v "".
(** [str::parse::<u32>]: an optional sign [+], then digits; the value must fit. *)
Fixpoint parse_digits (s : string) (acc : Z) : option Z :=
  match s with
  | EmptyString => Some acc
  | String c s' => let x := Z_of_ascii c in if (48 <=? x) && (x <=? 57) then let v := acc * 10 + (x - 48) in if v <? two32 then parse_digits s' v else None else None
  end.
Definition parse_u32 (s : string) : option Z :=
  match s with
  | EmptyString => None
  | String c s' => if Ascii.eqb c "+"%char then match s' with EmptyString => None | _ => parse_digits s' 0 end else parse_digits s 0
  end.
(** [str::split('/')]. *)
Fixpoint split_slash (s : string) : list string :=
  match s with
  | EmptyString => [""]
  | String c s' =>
      if Ascii.eqb c "/"%char then "" :: split_slash s'
      else match split_slash s' with p :: l => String c p :: l | [] => [String c ""] end
  end.
(** [str::strip_suffix] and [str::trim_end_matches]: the suffix is taken away as
    often as it is there. *)
Fixpoint strip_suffix (suffix s : string) : option string :=
  if String.eqb s suffix then Some ""
  else match s with EmptyString => None | String c s' => match strip_suffix suffix s' with Some r => Some (String c r) | None => None end end.
Fixpoint trim_fuel (n : nat) (suffix s : string) : string :=
  match n with
  | O => s
  | Datatypes.S n' => match strip_suffix suffix s with Some r => trim_fuel n' suffix r | None => s end
  end.
Definition trim_end_matches (suffix s : string) : string := trim_fuel (String.length s) suffix s.
(** The components of a relative path: empty ones and [.] do not count. *)
Definition components (s : string) : path := filter (fun c => negb (String.eqb c "") && negb (String.eqb c ".")) (split_slash s).
Fixpoint has_nul (s : string) : bool := match s with EmptyString => false | String c s' => Ascii.eqb c "000"%char || has_nul s' end.

(** ** A directory on disk (external): everything below it, by path; no links *)
Inductive dnode := DDir | DFile (content : list Z).
Definition disk : Type := list (path * dnode).
Fixpoint path_eqb (a b : path) : bool :=
  match a, b with [], [] => true | x :: a', y :: b' => String.eqb x y && path_eqb a' b' | _, _ => false end.
Fixpoint dget (p : path) (d : disk) : option dnode :=
  match d with [] => None | (q, n) :: d' => if path_eqb q p then Some n else dget p d' end.
Fixpoint dset (p : path) (n : dnode) (d : disk) : disk :=
  match d with [] => [(p, n)] | (q, x) :: d' => if path_eqb q p then (p, n) :: d' else (q, x) :: dset p n d' end.
(** [std::fs::create_dir_all] of the components [rest] below [p]. *)
Fixpoint mkdirs (p rest : path) (d : disk) : outcome disk :=
  match rest with
  | [] => Ok d
  | c :: rest' =>
      let q := p ++ [c] in
      match dget q d with
      | Some (DFile _) => Err (EOther "io")
      | Some DDir => mkdirs q rest' d
      | None => mkdirs q rest' (dset q DDir d)
      end
  end.
(** [File::create] and writing; the parent exists. *)
Definition create (p : path) (c : list Z) (d : disk) : outcome disk :=
  match dget p d with Some DDir => Err (EOther "io") | _ => Ok (dset p (DFile c) d) end.
(** [std::fs::read_dir]: the entries, in this order of the model; the callers
    permute them. *)
Definition child_of (p q : path) : option string := if path_eqb (removelast q) p then match q with [] => None | _ => Some (last q "") end else None.
Definition children (p : path) (d : disk) : list (string * dnode) :=
  flat_map (fun e => match child_of p (fst e) with Some n => [(n, snd e)] | None => [] end) d.

Section Balance.
  Context {U : Type}.
  Variable enc : U -> list Z.
  Variable dec : list Z -> option U.
  (** [HashMap<(u32, String), VersionedBalanceUnit>]. *)
  Definition units : Type := list ((Z * string) * U).
  Definition key_eqb (a b : Z * string) : bool := (fst a =? fst b) && String.eqb (snd a) (snd b).
  Fixpoint uget (k : Z * string) (m : units) : option U :=
    match m with [] => None | (k', u) :: m' => if key_eqb k' k then Some u else uget k m' end.
  Fixpoint uset (k : Z * string) (u : U) (m : units) : units :=
    match m with [] => [(k, u)] | (k', u') :: m' => if key_eqb k' k then (k, u) :: m' else (k', u') :: uset k u m' end.

  (** The body of the loop of json_handler.rs:25-40.  A component [..] is not
      modelled (an error); a file name with a zero byte is an error. *)
  Definition write_unit (k : Z * string) (u : U) (d : disk) : outcome disk :=
    let s := (show_u32 (fst k) ++ "/" ++ snd k ++ ".json")%string in
    let p := components s in
    if has_nul s || existsb (String.eqb "..") p then Err (EOther "io")
    else do d1 <- mkdirs [] (removelast p) d; create p (enc u) d1.
  (** Model of json_handler.rs:14-42 [write_balance_data_to_json]: how it ends and
      what is on the disk then; [l] is the map in the order in which it is walked. *)
  Fixpoint write_json (l : units) (d : disk) : outcome unit * disk :=
    match l with
    | [] => (Ok tt, d)
    | (k, u) :: l' => match write_unit k u d with Ok d' => write_json l' d' | Err e => (Err e, d) | Panic => (Panic, d) end
    end.

  (** The inner loop of json_handler.rs:72-86. *)
  Fixpoint read_files (v : Z) (l : list (string * dnode)) (m : units) : outcome units :=
    match l with
    | [] => Ok m
    | (_, DDir) :: l' => read_files v l' m
    | (f, DFile c) :: l' => match dec c with Some u => read_files v l' (uset (v, trim_end_matches ".json" f) u m) | None => Err (EOther "json") end
    end.
  (** The outer loop of json_handler.rs:57-87; [order] is the order in which the
      entries of a directory are listed. *)
  Fixpoint read_dirs (order : path -> list (string * dnode) -> list (string * dnode)) (d : disk) (l : list (string * dnode)) (m : units) : outcome units :=
    match l with
    | [] => Ok m
    | (_, DFile _) :: l' => read_dirs order d l' m
    | (s, DDir) :: l' =>
        match parse_u32 s with
        | None => read_dirs order d l' m
        | Some v => do m' <- read_files v (order [s] (children [s] d)) m; read_dirs order d l' m'
        end
    end.
  (** Model of json_handler.rs:45-94 [read_balance_data_from_json_dir]. *)
  Definition read_json_dir (order : path -> list (string * dnode) -> list (string * dnode)) (d : disk) : outcome units :=
    read_dirs order d (order [] (children [] d)) [].

  (** Model of json_handler.rs:96-125 [read_balance_data_from_included_assets]:
      the files with their names. *)
  Fixpoint read_assets (l : list (string * list Z)) (m : units) : outcome units :=
    match l with
    | [] => Ok m
    | (f, c) :: l' =>
        match split_slash f with
        | [s; n] =>
            match parse_u32 s with
            | None => read_assets l' m
            | Some v => match dec c with Some u => read_assets l' (uset (v, trim_end_matches ".json" n) u m) | None => Err (EOther "json") end
            end
        | _ => read_assets l' m
        end
    end.
  (** [include_dir!] (external): the files below the directory. *)
  Definition assets_of (d : disk) : list (string * list Z) :=
    flat_map (fun e => match snd e with DFile c => [(String.concat "/" (fst e), c)] | DDir => [] end) d.

  (** ** Units in XML files *)
  Variable id_of : U -> string.
  Variable xml : list Z -> option U.
  (** The inner loop of mod.rs:51-71: files that are not text end it, files that
      are not units are skipped. *)
  Fixpoint xml_files (v : Z) (l : list (string * dnode)) (m : units) : outcome units :=
    match l with
    | [] => Ok m
    | (_, DDir) :: l' => xml_files v l' m
    | (f, DFile c) :: l' =>
        match extension f with
        | Some e =>
            if String.eqb e "xml" then
              if utf8_ok c then match xml c with Some u => xml_files v l' (uset (v, id_of u) u m) | None => xml_files v l' m end
              else Err (EOther "io")
            else xml_files v l' m
        | None => xml_files v l' m
        end
    end.
  (** The outer loop of mod.rs:25-72. *)
  Fixpoint xml_dirs (order : path -> list (string * dnode) -> list (string * dnode)) (d : disk) (l : list (string * dnode)) (m : units) : outcome units :=
    match l with
    | [] => Ok m
    | (_, DFile _) :: l' => xml_dirs order d l' m
    | (s, DDir) :: l' =>
        match dget [s; "BalanceData"] d with
        | Some DDir =>
            match parse_u32 s with
            | None => xml_dirs order d l' m
            | Some v => do m' <- xml_files v (order [s; "BalanceData"] (children [s; "BalanceData"] d)) m; xml_dirs order d l' m'
            end
        | _ => xml_dirs order d l' m
        end
    end.
  (** Model of mod.rs:13-76 [traverse_versioned_balance_abilities]; [None]: there
      is no such directory. *)
  Definition traverse_xml (order : path -> list (string * dnode) -> list (string * dnode)) (root : option disk) : outcome units :=
    match root with
    | None => Ok []
    | Some d => xml_dirs order d (order [] (children [] d)) []
    end.
End Balance.
Arguments units : clear implicits.
