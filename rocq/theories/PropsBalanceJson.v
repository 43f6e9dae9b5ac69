(** * A balance unit as JSON (C115)

    [print] and [parse] are the text of a JSON value, external to the project. *)
From Coq Require Import Permutation.
From Verif Require Import Base F32 BalanceJson BalanceJsonSpec BalanceJsonFacts BalanceJsonNear UnitFileSpec UnitFileFacts UnitRows BalanceFiles BalanceSpec BalanceText BalanceFacts BalanceWrite BalanceXml PropsBalance.
#[local] Open Scope string_scope.
#[local] Open Scope Z_scope.
#[local] Open Scope list_scope.

(** The text of a unit and the unit of a text. *)
Definition unit_text (print : json -> list Z) (v : jval) : list Z := print (to_value j_unit v).
Definition unit_of_text (parse : list Z -> option json) (c : list Z) : option jval := match parse c with Some j => from_value j_unit j | None => None end.

(** A unit whose floats are numbers comes back as it was, even if printing
    and reading changed the double precision numbers by up to 2^-30. *)
Theorem C115_round_trip_partial : forall v j, is_unit v -> finite v -> json_near (to_value j_unit v) j -> from_value j_unit j = Some v.
Proof. exact unit_near_trip. Qed.
Print Assumptions C115_round_trip_partial.
Theorem C115_exact_partial : forall v, is_unit v -> finite v -> from_value j_unit (to_value j_unit v) = Some v.
Proof. exact unit_round_trip. Qed.
Print Assumptions C115_exact_partial.
(** What is read is a unit: every integer in the range of its field. *)
Theorem C115_reads_units : forall j v, from_value j_unit j = Some v -> is_unit v.
Proof. exact unit_typed. Qed.
Print Assumptions C115_reads_units.
(** Seven fields are required; other fields do not count, nor does the order. *)
Theorem C115_fields : forall m,
  (forall v, from_value j_unit (JObj m) = Some v -> forall k, In k ["@id"; "meta"; "life"; "armor"; "shieldArmor"; "score"; "misc"] -> exists j, jvalues k m = [j]) /\
  (forall m', Permutation m m' -> from_value j_unit (JObj m) = from_value j_unit (JObj m')) /\
  (forall k j, ~ In k (map fst unit_fields) -> from_value j_unit (JObj ((k, j) :: m)) = from_value j_unit (JObj m)).
Proof. intros m. split; [exact (unit_required m)|]. split; [intros m'; exact (from_order unit_fields m m')|intros k j; exact (from_unknown unit_fields k j m)]. Qed.
Print Assumptions C115_fields.
(** An object is a unit exactly when every one of its fields is there once and has
    a value of its type, or is not there and not one of the seven.  A field that is
    not there is [None] or an empty list. *)
Theorem C115_absent : forall m vs, from_value j_unit (JObj m) = Some (XObj vs) <->
  Forall2 (fun f x => (exists j, jvalues (fst f) m = [j] /\ from_value (fst (snd f)) j = Some x) \/
    (jvalues (fst f) m = [] /\ ~ In (fst f) ["@id"; "meta"; "life"; "armor"; "shieldArmor"; "score"; "misc"] /\ blank x /\ has_type (fst (snd f)) x)) unit_fields vs.
Proof. exact unit_absent_spec. Qed.
Print Assumptions C115_absent.

(** A number out of the range of its field makes it no unit ([by_name] names the
    values of arrays in place of objects; C143_objects). *)
Theorem C115_ranges : forall j v, from_value j_unit j = Some v ->
  (forall path z, In path [["meta"; "@index"]; ["life"; "@start"]; ["life"; "@max"]; ["shields"; "@start"]; ["shields"; "@max"]; ["armor"; "@start"]; ["armor"; "@max"];
     ["shieldArmor"; "@start"]; ["cost"; "@minerals"]; ["cost"; "@vespene"]; ["score"; "@build"]; ["score"; "@kill"]; ["misc"; "@cargoSize"]; ["weapons"; "weapon"; "@index"]] ->
     In (JInt z) (at_path path (by_name j)) -> 0 <= z < 2 ^ 32) /\
  (forall path z, In path [["abilities"; "ability"; "@index"]; ["researches"; "upgrade"; "@ability"]] -> In (JInt z) (at_path path (by_name j)) -> 0 <= z < 2 ^ 16) /\
  (forall path z, In path [["abilities"; "ability"; "command"; "@index"]; ["researches"; "upgrade"; "@index"]] -> In (JInt z) (at_path path (by_name j)) -> - 2 ^ 63 <= z < 2 ^ 63).
Proof. intros j v E. apply (unit_ranges (by_name j) v). now rewrite <- unit_by_name. Qed.
Print Assumptions C115_ranges.
Example C115_ranges_ex : let j := to_value j_unit (XObj [XStr "M"; XObj [XStr ""; XStr ""; XOpt None; XOpt None; XOpt None; XOpt None; XOpt (Some (XInt 7)); XOpt None]]) in at_path ["meta"; "@index"] j = [JInt 7].
Proof. vm_compute. reflexivity. Qed.

(** Through a directory: [m] is in the files what was written last. *)
Lemma directory : forall print parse (runs : list (units jval)),
  (forall k v, last_written k runs = Some v -> is_unit v /\ finite v /\ exists j, parse (print (to_value j_unit v)) = Some j /\ json_near (to_value j_unit v) j) -> Forall storable runs ->
  exists d, write_runs (unit_text print) runs [] = (Ok tt, d) /\
    (forall order : listing, lists order -> exists m, read_json_dir (unit_of_text parse) order d = Ok m /\ forall k, uget k m = last_written k runs) /\
    (forall l, Permutation (assets_of d) l -> exists m, read_assets (unit_of_text parse) l [] = Ok m /\ forall k, uget k m = last_written k runs).
Proof.
  intros print parse runs H F. apply (runs_read (unit_text print) (unit_of_text parse) runs); [|exact F].
  intros k v Hk. destruct (H k v Hk) as (H1 & H2 & j & Ej & Hj). unfold unit_of_text, unit_text. rewrite Ej. now apply unit_near_trip.
Qed.
Theorem C115_directory_partial : forall print parse (runs : list (units jval)),
  (forall k v, last_written k runs = Some v -> is_unit v /\ finite v /\ exists j, parse (print (to_value j_unit v)) = Some j /\ json_near (to_value j_unit v) j) -> Forall storable runs ->
  exists d, write_runs (unit_text print) runs [] = (Ok tt, d) /\
    (forall order : listing, lists order -> exists m, read_json_dir (unit_of_text parse) order d = Ok m /\ forall k, uget k m = last_written k runs) /\
    (forall l, Permutation (assets_of d) l -> exists m, read_assets (unit_of_text parse) l [] = Ok m /\ forall k, uget k m = last_written k runs).
Proof. exact directory. Qed.
Print Assumptions C115_directory_partial.

(** A unit: [speed] is that of its movement, [regen] that of its life. *)
Definition ex_meta : jval := XObj [XStr "Marine"; XStr ""; XOpt None; XOpt (Some (XStr "Terr")); XOpt None; XOpt None; XOpt (Some (XInt 4294967295)); XOpt None].
Definition ex_unit (speed regen : f32) : jval := XObj [
  XStr "Marine"; ex_meta; XObj [XInt 45; XInt 45; XOpt (Some (XF32 regen))]; XOpt None; XObj [XInt 0; XInt 3]; XObj [XInt 0; XInt 0];
  empty_tag; XOpt (Some (XObj [XOpt (Some (XInt 50)); XOpt None; XOpt (Some (XF32 f32_one)); XOpt None; XOpt None; XOpt None; XOpt None])); XOpt None;
  XOpt (Some (XObj [XStr "Ground"; XF32 speed; XF32 f32_two; XF32 f32_two; XOpt None])); XObj [XOpt None; XOpt None]; XObj (repeat (XOpt None) 10); XOpt None;
  XObj [XVec [XObj [XOpt (Some (XStr "Light"))]; XObj [XOpt None]]]; empty_tag; empty_tag; empty_tag;
  XObj [XVec [XObj [XStr "stop"; XOpt (Some (XInt 65535)); XVec [XObj [XOpt None; XInt (-1); ex_meta]]]]]; empty_tag; empty_tag; empty_tag].
Ltac has := repeat (match goal with |- has_type _ _ => econstructor | |- Forall _ _ => constructor | |- Forall2 _ _ _ => constructor | |- f32_valid _ = true => reflexivity || assumption | |- _ <= _ <= _ => unfold two32, two63; lia end; cbn [fst snd]).
Lemma ex_is_unit : forall speed regen, f32_valid speed = true -> f32_valid regen = true -> is_unit (ex_unit speed regen).
Proof. intros speed regen Vs Vr. unfold is_unit, ex_unit, j_unit, ex_meta, empty_tag. cbn [repeat]. has; unfold two32, two63; lia. Qed.
Ltac fin := repeat (match goal with |- finite _ => constructor | |- Forall _ _ => constructor end); try (intros; discriminate).
Lemma ex_finite : finite (ex_unit f32_045 f32_half).
Proof. unfold ex_unit, ex_meta, empty_tag. cbn [repeat]. fin. Qed.
Lemma float_near_refl : forall x, float_near x x.
Proof. intros [s|s| |s m e]; unfold float_near; try reflexivity. split; [reflexivity|]. intros k H1 H2. rewrite Z.sub_diag. change (Z.abs 0) with 0. set (p := 2 ^ (e + k)). assert (0 <= p) by (apply Z.pow_nonneg; lia). nia. Qed.
(** 0.45f32 as a double, and the double next to it. *)
Example C115_ex : is_unit (ex_unit f32_045 f32_half) /\ finite (ex_unit f32_045 f32_half) /\
  (exists y, y <> f64_of_f32 f32_045 /\ float_near (f64_of_f32 f32_045) y) /\
  from_value j_unit (to_value j_unit (ex_unit f32_045 f32_half)) = Some (ex_unit f32_045 f32_half) /\
  from_value j_unit (JObj [("@id", JStr "Marine")]) = None /\
  (let s := JObj [("@start", JInt 1); ("@max", JInt 2)] in exists vs, from_value j_unit (JObj [("@id", JStr "Marine"); ("meta", JObj [("@name", JStr ""); ("@tooltip", JStr "")]); ("life", s); ("armor", s); ("shieldArmor", s); ("score", JObj []); ("misc", JObj [])]) = Some (XObj vs)).
Proof.
  split; [apply ex_is_unit; reflexivity|]. split; [exact ex_finite|]. split.
  - exists (S754_finite false 8106479114518529 (-54)). split; [vm_compute; discriminate|].
    change (f64_of_f32 f32_045) with (S754_finite false 8106479114518528 (-54)).
    split; [reflexivity|]. intros k H1 H2. set (p := 2 ^ (-54 + k)). assert (0 < p) by (apply Z.pow_pos_nonneg; lia). lia.
  - split; [apply unit_round_trip; [apply ex_is_unit; reflexivity|exact ex_finite]|]. split; [vm_compute; reflexivity|]. eexists. vm_compute. reflexivity.
Qed.
Lemma ex_storable : forall v, storable ([((1, "Marine"), v)] : units jval).
Proof. intros v. split; [repeat constructor; intros []|constructor; [cbn [fst snd]; split; [unfold two32; lia|plain_name]|constructor]]. Qed.

(** One unit in a directory, with a text for its value only. *)
Definition ex_print (j : json) : list Z := [1].
Definition ex_parse (v : jval) (c : list Z) : option json := Some (to_value j_unit v).
Lemma json_near_refl : forall j, json_near j j.
Proof.
  fix IH 1. intros [|b|z|x|s|l|m]; constructor; [apply float_near_refl| |].
  - induction l as [|j l IHl]; constructor; [apply IH|exact IHl].
  - induction m as [|[k j] m IHm]; constructor; [split; [reflexivity|apply IH]|exact IHm].
Qed.
Example C115_directory_ex : let u := ex_unit f32_045 f32_half in let runs := [[((1, "Marine"), u)]] in Forall storable runs /\
  forall k v, last_written k runs = Some v -> is_unit v /\ finite v /\ exists j, ex_parse u (ex_print (to_value j_unit v)) = Some j /\ json_near (to_value j_unit v) j.
Proof.
  intros u runs. split; [constructor; [apply ex_storable|constructor]|]. intros k v E. assert (v = u) as ->.
  { unfold runs in E. cbn [last_written uget] in E. destruct (key_eqb (1, "Marine") k); congruence. }
  split; [apply ex_is_unit; reflexivity|]. split; [exact ex_finite|]. eexists. split; [reflexivity|apply json_near_refl].
Qed.

(** A speed that is not a number is written and cannot be read: no unit of the
    directory can.  An optional one is lost. *)
Theorem C115_not_finite_refuted :
  ~ (forall v, is_unit v -> from_value j_unit (to_value j_unit v) = Some v) /\
  (forall speed, speed = S754_nan \/ (exists s, speed = S754_infinity s) ->
    exists v, v = ex_unit speed f32_half /\ is_unit v /\ from_value j_unit (to_value j_unit v) = None /\
      forall print parse, parse (print (to_value j_unit v)) = Some (to_value j_unit v) ->
        exists d e, write_json (unit_text print) [((1, "Marine"), v)] [] = (Ok tt, d) /\ read_json_dir (unit_of_text parse) as_is d = Err e) /\
  from_value j_unit (to_value j_unit (ex_unit f32_one S754_nan)) =
    Some (match ex_unit f32_one S754_nan with XObj (i :: m :: _ :: l) => XObj (i :: m :: XObj [XInt 45; XInt 45; XOpt None] :: l) | u => u end).
Proof.
  assert (N : forall speed, speed = S754_nan \/ (exists s, speed = S754_infinity s) -> from_value j_unit (to_value j_unit (ex_unit speed f32_half)) = None).
  { intros speed [-> |(s & ->)]; vm_compute; reflexivity. }
  split; [|split].
  - intros H. specialize (H (ex_unit S754_nan f32_half) (ex_is_unit S754_nan f32_half eq_refl eq_refl)). rewrite (N _ (or_introl eq_refl)) in H. discriminate.
  - intros speed Hs. assert (V : f32_valid speed = true) by (destruct Hs as [-> |(s & ->)]; reflexivity).
    exists (ex_unit speed f32_half). split; [reflexivity|]. split; [apply ex_is_unit; [exact V|reflexivity]|]. split; [exact (N speed Hs)|].
    intros print parse Hp.
    exists [(["1"], DDir); (["1"; "Marine.json"], DFile (unit_text print (ex_unit speed f32_half)))]. eexists. split.
    + cbv - [unit_text ex_unit]. reflexivity.
    + assert (D : unit_of_text parse (unit_text print (ex_unit speed f32_half)) = None) by (unfold unit_of_text, unit_text; rewrite Hp; exact (N speed Hs)).
      set (c := unit_text print (ex_unit speed f32_half)) in *. clearbody c. set (dec := unit_of_text parse) in *. clearbody dec. cbv. rewrite D. reflexivity.
  - vm_compute. reflexivity.
Qed.
Print Assumptions C115_not_finite_refuted.
