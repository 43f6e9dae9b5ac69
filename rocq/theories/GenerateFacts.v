(** * Facts about [generate] *)
From Coq Require Import Ascii Lia.
From Verif Require Import Base BalanceJson GenerateRun GenerateSpec.
#[local] Open Scope string_scope.
#[local] Open Scope Z_scope.
#[local] Open Scope list_scope.

Lemma sapp_assoc a b c : ((a ++ b) ++ c = a ++ b ++ c)%string.
Proof. induction a; cbn; [reflexivity | now rewrite IHa]. Qed.
Lemma sapp_nil a : (a ++ "" = a)%string.
Proof. induction a; cbn; [reflexivity | now rewrite IHa]. Qed.
Lemma slength_app a b : (String.length (a ++ b) = String.length a + String.length b)%nat.
Proof. induction a; cbn; [reflexivity | now rewrite IHa]. Qed.

(** ** A run as a sequence of pieces, with the places where it would stop *)
Inductive gstep := GStop | GPiece (p : piece).
Definition is_piece (g : gstep) : bool := match g with GStop => false | GPiece _ => true end.

Section Facts.
  Variable su : surroundings.
  Variable num : Z.
  Variable tags : string -> option string.

  Definition run_step (g : gstep) (out : string) : written :=
    match g with
    | GStop => (Panic, out)
    | GPiece (Lines l) => write_text su (String.concat "" (map (fun s => s ++ nl)%string l)) out
    | GPiece (CodeOf dec d) => write_decl su num tags dec d out
    end.
  Fixpoint run_steps (l : list gstep) (out : string) : written :=
    match l with [] => (Ok tt, out) | g :: l' => and_then (run_step g out) (run_steps l') end.

  Lemma and_then_assoc w f g : and_then (and_then w f) g = and_then w (fun out => and_then (f out) g).
  Proof. destruct w as [[]]; reflexivity. Qed.
  Lemma and_then_ext w f g : (forall out, f out = g out) -> and_then w f = and_then w g.
  Proof. intros H. destruct w as [[]]; cbn; auto. Qed.
  Lemma run_steps_app a b out : run_steps (a ++ b) out = and_then (run_steps a out) (run_steps b).
  Proof.
    revert out. induction a as [|g a IH]; intros out; cbn [List.app run_steps and_then]; [reflexivity|].
    rewrite and_then_assoc. apply and_then_ext. exact IH.
  Qed.
  Lemma run_one g out : run_steps [g] out = run_step g out.
  Proof. cbn [run_steps]. destruct (run_step g out) as [[[]| |]]; reflexivity. Qed.

  Definition code_if (b : bool) (dec : decoder) (d : json) : list gstep := if b then [GPiece (CodeOf dec d)] else [].
  Definition steps_if (b : bool) (l : list gstep) : list gstep := if b then l else [].
  Definition steps_over (o : option (list json)) (f : json -> list gstep) : list gstep := match o with Some l => flat_map f l | None => [GStop] end.

  Lemma only_if_steps b l f out : (forall out, f out = run_steps l out) -> only_if b f out = run_steps (steps_if b l) out.
  Proof. intros H. unfold only_if, steps_if. destruct b; [apply H | reflexivity]. Qed.
  Lemma code_if_steps b dec d out : only_if b (write_decl su num tags dec d) out = run_steps (code_if b dec d) out.
  Proof. apply (only_if_steps b [GPiece (CodeOf dec d)]). intros o. now rewrite run_one. Qed.
  Lemma for_each_steps f g l out : (forall d out, f d out = run_steps (g d) out) -> for_each f l out = run_steps (flat_map g l) out.
  Proof.
    intros H. revert out. induction l as [|d l IH]; intros out; cbn [for_each flat_map]; [reflexivity|].
    rewrite run_steps_app, H. apply and_then_ext. exact IH.
  Qed.
  Lemma loop_over_steps o f g out : (forall d out, f d out = run_steps (g d) out) -> loop_over o f out = run_steps (steps_over o g) out.
  Proof. intros H. destruct o as [l|]; cbn [loop_over steps_over]; [now apply for_each_steps | reflexivity]. Qed.

  (** The steps of the two passes. *)
  Definition byte_steps (m : json) : list gstep :=
    match name_of m with
    | None => [GStop]
    | Some full =>
        code_if (String.eqb full "NNet.SVersion") ByteAligned m ++
        code_if (String.eqb full "NNet.SVarUint32") ByteAligned m ++
        code_if (String.eqb full "NNet.SMD5") ByteAligned m ++
        code_if (String.eqb full "NNet.EObserve") ByteAligned m ++
        steps_if (String.eqb full "NNet.Replay" || String.eqb full "NNet.Game")
          (steps_over (as_list (at_key "decls" m)) (fun r =>
             code_if (named_one r ["NNet.Replay.SHeader"]) ByteAligned r ++
             steps_if (named_one r ["NNet.Replay.Tracker"])
               (steps_over (as_list (at_key "decls" r)) (fun t =>
                  match name_of t with
                  | None => [GStop]
                  | Some tn => code_if (starts "NNet.Replay.Tracker.S" tn || String.eqb tn "NNet.Replay.Tracker.EEventId") ByteAligned t
                  end)) ++
             code_if (named_one r ["NNet.Game.CPlayerDetailsArray"; "NNet.Game.SDetails"; "NNet.Game.SPlayerDetails"; "NNet.Game.SThumbnail";
                                   "NNet.Game.EGameSpeed"; "NNet.Game.EResultDetails"; "NNet.Game.SToonNameDetails"; "NNet.Game.SColor"]) ByteAligned r))
    end.
  Definition bit_names : list string :=
    ["NNet.SVarUint32"; "NNet.TUserId"; "NNet.ELeaveReason"; "NNet.CToonHandle"; "NNet.CFilePath"; "NNet.EObserve"; "NNet.CUserName";
     "NNet.CClanTag"; "NNet.CUserInitialDataArray"; "NNet.EReconnectStatus"; "NNet.TUserCount"; "NNet.CCommanderHandle";
     "NNet.CMountHandle"; "NNet.CSkinHandle"; "NNet.CHeroHandle"; "NNet.TRacePreference"; "NNet.CArtifactHandle"; "NNet.TRaceCount";
     "NNet.TRaceId"; "NNet.SUserInitialData"; "NNet.CAllowedObserveTypes"; "NNet.CAllowedRaces"; "NNet.CCacheHandle";
     "NNet.TTeamPreference"].
  Definition bit_steps (m : json) : list gstep :=
    match name_of m with
    | None => [GStop]
    | Some full =>
        code_if (starts "NNet.uint" full) BitPacked m ++
        code_if (starts "NNet.int" full) BitPacked m ++
        code_if (existsb (String.eqb full) bit_names) BitPacked m ++
        steps_if (String.eqb full "NNet.Replay")
          (steps_over (as_list (at_key "decls" m)) (fun r =>
             code_if (named_one r ["NNet.Replay.SGameUserId"; "NNet.Replay.SInitData"]) BitPacked r)) ++
        code_if (String.eqb full "NNet.SVersion") BitPacked m ++
        code_if (String.eqb full "NNet.SMD5") BitPacked m ++
        steps_if (String.eqb full "NNet.Game")
          (steps_over (as_list (at_key "decls" m)) (fun g =>
             steps_if (negb (named_one g ["NNet.Game.ESenders"]))
               (code_if true BitPacked g ++
                steps_if (named_one g ["NNet.Game.STriggerDialogControlEvent"])
                  (steps_over (as_list (at_key "fields" (at_key "type_info" g))) (fun c =>
                     code_if (is_text "m_eventData" (at_key "name" c)) BitPacked c)))))
    end.

  Ltac step1 := rewrite run_steps_app; rewrite code_if_steps; apply and_then_ext; intros ?.
  Lemma byte_module_steps m out : byte_module su num tags m out = run_steps (byte_steps m) out.
  Proof.
    unfold byte_module, byte_steps, name_of. destruct (as_text (at_key "fullname" m)) as [full|]; [|reflexivity].
    cbv zeta. do 4 step1. apply only_if_steps. intros o. apply loop_over_steps. intros r o1.
    step1. rewrite run_steps_app.
    rewrite (only_if_steps (named_one r ["NNet.Replay.Tracker"]) (steps_over (as_list (at_key "decls" r)) (fun t =>
                  match as_text (at_key "fullname" t) with
                  | None => [GStop]
                  | Some tn => code_if (starts "NNet.Replay.Tracker.S" tn || String.eqb tn "NNet.Replay.Tracker.EEventId") ByteAligned t
                  end))).
    - apply and_then_ext. intros o2. apply code_if_steps.
    - intros o2. apply loop_over_steps. intros t o3. destruct (as_text (at_key "fullname" t)); [apply code_if_steps | reflexivity].
  Qed.
  Lemma bit_module_steps m out : bit_module su num tags m out = run_steps (bit_steps m) out.
  Proof.
    unfold bit_module, bit_steps, name_of. destruct (as_text (at_key "fullname" m)) as [full|]; [|reflexivity].
    cbv zeta. fold bit_names. do 3 step1. rewrite run_steps_app.
    rewrite (only_if_steps (String.eqb full "NNet.Replay") (steps_over (as_list (at_key "decls" m)) (fun r =>
             code_if (named_one r ["NNet.Replay.SGameUserId"; "NNet.Replay.SInitData"]) BitPacked r))).
    2: { intros o. apply loop_over_steps. intros r o1. apply code_if_steps. }
    apply and_then_ext. intros o0. do 2 step1. apply only_if_steps. intros o. apply loop_over_steps. intros g o1.
    destruct (named_one g ["NNet.Game.ESenders"]); cbn [negb steps_if]; [reflexivity|].
    rewrite run_steps_app. unfold code_if at 1. rewrite run_one. cbn [run_step]. apply and_then_ext. intros o2.
    apply only_if_steps. intros o3. apply loop_over_steps. intros c o4. apply code_if_steps.
  Qed.

  Definition file_steps (source : string) (mods : list json) : list gstep :=
    [GPiece (Lines ["pub mod events;"; "pub use events::*;"]);
     GPiece (Lines ["pub mod byte_aligned {"]); GPiece (Lines [("//! Generated code from source: " ++ source)%string]);
     GPiece (Lines ["use crate::*;"; "use nom_mpq::parser::peek_hex;"])] ++
    flat_map byte_steps mods ++
    [GPiece (Lines ["}"]);
     GPiece (Lines ["pub mod bit_packed {"]); GPiece (Lines [("//! Generated code from source: " ++ source)%string]);
     GPiece (Lines ["use crate::*;"])] ++
    flat_map bit_steps mods ++
    [GPiece (Lines ["}"])].
End Facts.

(** What is left of the steps without those that stop the run. *)
Definition clean (l : list gstep) : list gstep := filter is_piece l.
Lemma clean_app a b : clean (a ++ b) = clean a ++ clean b.
Proof. unfold clean. apply filter_app. Qed.
Lemma clean_piece p l : clean (GPiece p :: l) = GPiece p :: clean l.
Proof. reflexivity. Qed.
Lemma clean_flat {A} (f : A -> list gstep) l : clean (flat_map f l) = flat_map (fun x => clean (f x)) l.
Proof. induction l; cbn [flat_map]; [reflexivity|]. now rewrite clean_app, IHl. Qed.
Lemma clean_code b dec d : clean (code_if b dec d) = code_if b dec d.
Proof. unfold code_if. destruct b; reflexivity. Qed.
Lemma clean_if b l : clean (steps_if b l) = steps_if b (clean l).
Proof. destruct b; reflexivity. Qed.
Lemma clean_over o f : clean (steps_over o f) = flat_map (fun x => clean (f x)) (listed o).
Proof. destruct o; cbn [steps_over listed]; [apply clean_flat | reflexivity]. Qed.

(** The pieces of a list of declarations at their places. *)
Definition codes (dec : decoder) (l : list (doc_place * json)) : list gstep := map (fun e => GPiece (CodeOf dec (snd e))) (filter (wanted dec) l).
Lemma codes_app dec a b : codes dec (a ++ b) = codes dec a ++ codes dec b.
Proof. unfold codes. now rewrite filter_app, map_app. Qed.
Lemma codes_cons dec p d l : codes dec ((p, d) :: l) = code_if (wanted dec (p, d)) dec d ++ codes dec l.
Proof. unfold codes, code_if. cbn [filter]. destruct (wanted dec (p, d)); reflexivity. Qed.
Lemma codes_flat {A} dec (f : A -> list (doc_place * json)) l : codes dec (flat_map f l) = flat_map (fun x => codes dec (f x)) l.
Proof. induction l; cbn [flat_map]; [reflexivity|]. now rewrite codes_app, IHl. Qed.
Lemma codes_map dec p l : codes dec (map (fun g => (p, g)) l) = flat_map (fun g => code_if (wanted dec (p, g)) dec g) l.
Proof. induction l as [|g l IH]; cbn [map flat_map]; [reflexivity|]. now rewrite codes_cons, IH. Qed.
Lemma flat_map_nothing {A B} (f : A -> list B) l : (forall x, f x = []) -> flat_map f l = [].
Proof. intros H. induction l; cbn [flat_map]; [reflexivity|]. now rewrite H, IHl. Qed.
Lemma flat_map_same {A B} (f g : A -> list B) l : (forall x, f x = g x) -> flat_map f l = flat_map g l.
Proof. intros H. induction l; cbn [flat_map]; [reflexivity|]. now rewrite H, IHl. Qed.
Lemma codes_walk dec mods :
  codes dec (walk mods) =
  flat_map (fun m => code_if (wanted dec (AtTop, m)) dec m ++
    flat_map (fun c => code_if (wanted dec (InModule (name_of m), c)) dec c ++
      flat_map (fun g => code_if (wanted dec (InTracker (name_of m) (name_of c), g)) dec g) (decls_of c) ++
      flat_map (fun f => code_if (wanted dec (AsField (name_of m) (name_of c), f)) dec f) (fields_of c)) (decls_of m)) mods.
Proof.
  unfold walk. rewrite codes_flat. apply flat_map_same. intros m. rewrite codes_cons, codes_flat. f_equal. apply flat_map_same. intros c.
  now rewrite codes_cons, codes_app, !codes_map.
Qed.
Lemma codes_wanted dec mods : codes dec (walk mods) = map (fun d => GPiece (CodeOf dec d)) (wanted_of dec mods).
Proof. unfold codes, wanted_of. now rewrite map_map. Qed.

Lemma named_one_of d l : named_one d l = one_of (name_of d) l.
Proof.
  unfold named_one, name_of, one_of. destruct (at_key "fullname" d); cbn [as_text is_text]; try (induction l; cbn; auto; fail).
Qed.
Lemma starts_prefix p s : starts p s = String.prefix p s.
Proof.
  unfold starts. revert s. induction p as [|a p IH]; intros [|b s]; cbn [drop_prefix String.prefix]; try reflexivity.
  rewrite <- IH. destruct (ascii_dec a b) as [->|N].
  - now rewrite Ascii.eqb_refl.
  - destruct (Ascii.eqb_spec a b); [contradiction | reflexivity].
Qed.
Lemma is_text_one s v : is_text s v = one_of (as_text v) [s].
Proof. destruct v; cbn [is_text as_text one_of existsb]; try reflexivity. now rewrite orb_false_r. Qed.

Ltac by_name full :=
  repeat match goal with
         | |- context [String.eqb full ?k] => let E := fresh "E" in destruct (String.eqb full k) eqn:E; [apply String.eqb_eq in E; subst full; vm_compute; reflexivity|]
         end.

Lemma byte_steps_codes m :
  clean (byte_steps m) =
  code_if (wanted ByteAligned (AtTop, m)) ByteAligned m ++
  flat_map (fun c => code_if (wanted ByteAligned (InModule (name_of m), c)) ByteAligned c ++
      flat_map (fun g => code_if (wanted ByteAligned (InTracker (name_of m) (name_of c), g)) ByteAligned g) (decls_of c) ++
      flat_map (fun f => code_if (wanted ByteAligned (AsField (name_of m) (name_of c), f)) ByteAligned f) (fields_of c)) (decls_of m).
Proof.
  unfold byte_steps. cbn [wanted fst snd]. destruct (name_of m) as [full|] eqn:F; cbn [one_of].
  2: { cbn [clean filter is_piece code_if andb List.app]. symmetry. apply flat_map_nothing. intros c. cbn [code_if List.app].
       rewrite !flat_map_nothing; reflexivity. }
  rewrite !clean_app, !clean_code, clean_if, clean_over. cbn [existsb]. rewrite !orb_false_r.
  assert (T : forall l, code_if (String.eqb full "NNet.SVersion") ByteAligned m ++ code_if (String.eqb full "NNet.SVarUint32") ByteAligned m ++
    code_if (String.eqb full "NNet.SMD5") ByteAligned m ++ code_if (String.eqb full "NNet.EObserve") ByteAligned m ++ l =
    code_if (String.eqb full "NNet.SVersion" || (String.eqb full "NNet.SVarUint32" || (String.eqb full "NNet.SMD5" || String.eqb full "NNet.EObserve"))) ByteAligned m ++ l).
  { intros l. by_name full. reflexivity. }
  rewrite T. f_equal. fold (decls_of m).
  destruct (String.eqb full "NNet.Replay" || String.eqb full "NNet.Game") eqn:R; cbn [steps_if andb].
  2: { symmetry. apply flat_map_nothing. intros c. cbn [code_if List.app]. rewrite !flat_map_nothing; reflexivity. }
  apply flat_map_same. intros r. rewrite !clean_app, !clean_code, clean_if, clean_over, !named_one_of.
  fold (decls_of r). rewrite (flat_map_nothing (fun f => code_if false ByteAligned f)) by reflexivity. rewrite app_nil_r.
  destruct (name_of r) as [rn|]; cbn [one_of existsb steps_if code_if List.app andb].
  2: { now rewrite flat_map_nothing. }
  rewrite !orb_false_r.
  destruct (String.eqb rn "NNet.Replay.Tracker") eqn:K; cbn [steps_if andb].
  - apply String.eqb_eq in K. subst rn. cbn [code_if List.app]. rewrite app_nil_r. apply flat_map_same. intros t.
    destruct (name_of t) as [tn|]; cbn [begins_with one_of existsb orb]; [|reflexivity].
    now rewrite clean_code, starts_prefix, orb_false_r.
  - rewrite (flat_map_nothing (fun g => code_if false ByteAligned g)) by reflexivity. rewrite app_nil_r. cbn [List.app].
    destruct (String.eqb rn "NNet.Replay.SHeader") eqn:H; [apply String.eqb_eq in H; subst rn; reflexivity|].
    cbn [code_if List.app orb]. reflexivity.
Qed.

Lemma bit_steps_codes m :
  clean (bit_steps m) =
  code_if (wanted BitPacked (AtTop, m)) BitPacked m ++
  flat_map (fun c => code_if (wanted BitPacked (InModule (name_of m), c)) BitPacked c ++
      flat_map (fun g => code_if (wanted BitPacked (InTracker (name_of m) (name_of c), g)) BitPacked g) (decls_of c) ++
      flat_map (fun f => code_if (wanted BitPacked (AsField (name_of m) (name_of c), f)) BitPacked f) (fields_of c)) (decls_of m).
Proof.
  unfold bit_steps. cbn [wanted fst snd]. destruct (name_of m) as [full|] eqn:F; cbn [one_of].
  2: { cbn [clean filter is_piece code_if andb orb begins_with List.app]. symmetry. apply flat_map_nothing. intros c. cbn [code_if List.app].
       rewrite !flat_map_nothing; reflexivity. }
  rewrite !clean_app, !clean_code, !clean_if, !clean_over.
  fold (decls_of m). cbn [begins_with].
  rewrite !starts_prefix.
  (* modules and the other declarations *)
  assert (Sub : forall c, flat_map (fun g => code_if false BitPacked g) (decls_of c) = []) by (intros; now apply flat_map_nothing).
  destruct (String.eqb full "NNet.Replay") eqn:R.
  { apply String.eqb_eq in R. subst full. cbn [steps_if].
    change (existsb (String.eqb "NNet.Replay") bit_names) with false.
    change (String.prefix "NNet.uint" "NNet.Replay") with false. change (String.prefix "NNet.int" "NNet.Replay") with false.
    change (String.eqb "NNet.Replay" "NNet.SVersion") with false. change (String.eqb "NNet.Replay" "NNet.SMD5") with false.
    change (String.eqb "NNet.Replay" "NNet.Game") with false.
    match goal with |- _ = code_if ?b _ _ ++ _ => change b with false end. cbn [code_if steps_if List.app]. rewrite app_nil_r.
    apply flat_map_same. intros c. rewrite clean_code, Sub, named_one_of.
    change (existsb (String.eqb "NNet.Replay") ["NNet.Replay"]) with true. change (existsb (String.eqb "NNet.Replay") ["NNet.Game"]) with false.
    cbn [andb List.app]. rewrite orb_false_r, (flat_map_nothing (fun f => code_if false BitPacked f)) by reflexivity. now rewrite app_nil_r. }
  destruct (String.eqb full "NNet.Game") eqn:G.
  { apply String.eqb_eq in G. subst full. cbn [steps_if].
    change (existsb (String.eqb "NNet.Game") bit_names) with false.
    change (String.prefix "NNet.uint" "NNet.Game") with false. change (String.prefix "NNet.int" "NNet.Game") with false.
    change (String.eqb "NNet.Game" "NNet.SVersion") with false. change (String.eqb "NNet.Game" "NNet.SMD5") with false.
    match goal with |- _ = code_if ?b _ _ ++ _ => change b with false end. cbn [code_if List.app].
    apply flat_map_same. intros c. rewrite clean_if, clean_piece, clean_if, clean_over, Sub, !named_one_of.
    change (existsb (String.eqb "NNet.Game") ["NNet.Replay"]) with false. change (existsb (String.eqb "NNet.Game") ["NNet.Game"]) with true.
    cbn [andb orb List.app]. fold (fields_of c).
    destruct (one_of (name_of c) ["NNet.Game.ESenders"]) eqn:Z.
    - cbn [negb steps_if code_if List.app]. destruct (name_of c) as [n|]; [|discriminate Z]. cbn [one_of existsb] in Z. rewrite orb_false_r in Z.
      apply String.eqb_eq in Z. subst n. change (one_of (Some "NNet.Game.ESenders") ["NNet.Game.STriggerDialogControlEvent"]) with false.
      cbn [andb]. now rewrite flat_map_nothing.
    - cbn [negb steps_if code_if List.app]. f_equal.
      destruct (one_of (name_of c) ["NNet.Game.STriggerDialogControlEvent"]); cbn [steps_if andb].
      + apply flat_map_same. intros f. now rewrite clean_code, is_text_one.
      + now rewrite flat_map_nothing. }
  cbn [steps_if List.app existsb andb orb]. rewrite R, G. cbn [orb andb].
  rewrite (flat_map_nothing (fun c => code_if false BitPacked c ++ _)); cycle 1.
  { intros c. cbn [code_if List.app]. now rewrite Sub, flat_map_nothing. }
  rewrite !app_nil_r.
  unfold bit_names. cbn [existsb]. by_name full.
  destruct (String.prefix "NNet.uint" full) eqn:U; destruct (String.prefix "NNet.int" full) eqn:V; try reflexivity.
  exfalso. apply String.prefix_correct in U, V. clear - U V.
  pose proof (String.substring_correct1 full 0 9 5 ltac:(repeat constructor)) as A.
  pose proof (String.substring_correct1 full 0 8 5 ltac:(repeat constructor)) as B.
  cbn [String.length] in U, V. rewrite U in A. rewrite V in B. rewrite <- A in B. discriminate B.
Qed.

Lemma clean_file_steps source mods : clean (file_steps source mods) = map GPiece (module_pieces source mods).
Proof.
  unfold file_steps, module_pieces. rewrite !clean_app, !map_app, !clean_flat, !map_map.
  rewrite <- !codes_wanted, !codes_walk. f_equal. f_equal; [apply flat_map_same, byte_steps_codes|]. f_equal. f_equal.
  apply flat_map_same, bit_steps_codes.
Qed.

(** ** Where the run stops by itself *)
Definition no_stop (l : list gstep) : Prop := ~ In GStop l.
Lemma no_stop_app a b : no_stop (a ++ b) <-> no_stop a /\ no_stop b.
Proof. unfold no_stop. rewrite in_app_iff. tauto. Qed.
Lemma no_stop_flat {A} (f : A -> list gstep) l : no_stop (flat_map f l) <-> forall x, In x l -> no_stop (f x).
Proof.
  unfold no_stop. rewrite in_flat_map. split.
  - intros H x I J. apply H. now exists x.
  - intros H (x & I & J). exact (H x I J).
Qed.
Lemma no_stop_code b dec d : no_stop (code_if b dec d).
Proof. unfold no_stop, code_if. destruct b; cbn [In]; [intros [E|[]]; discriminate | tauto]. Qed.
Lemma no_stop_if b l : no_stop (steps_if b l) <-> (b = true -> no_stop l).
Proof. unfold steps_if. destruct b; split; auto; try discriminate. intros _ []. Qed.
Lemma no_stop_over o f : no_stop (steps_over o f) <-> (exists l, o = Some l) /\ forall x, In x (listed o) -> no_stop (f x).
Proof.
  destruct o as [l|]; cbn [steps_over listed].
  - rewrite no_stop_flat. split; [intros H; split; [now exists l | exact H] | tauto].
  - unfold no_stop. cbn [In]. split; [tauto | intros [(l & E) _]; discriminate E].
Qed.
Lemma clean_no_stop l : no_stop l -> clean l = l.
Proof.
  induction l as [|[|p] l IH]; intros N; [reflexivity| |].
  - exfalso. apply N. now left.
  - rewrite clean_piece, IH; [reflexivity|]. intros I. apply N. now right.
Qed.
Lemma clean_firstn k l : no_stop (firstn k l) -> firstn k l = firstn k (clean l).
Proof.
  revert l. induction k as [|k IH]; intros [|[|p] l] N; cbn [firstn]; try reflexivity.
  - exfalso. apply N. now left.
  - rewrite clean_piece. cbn [firstn]. f_equal. apply IH. intros I. apply N. now right.
Qed.

Lemma as_list_arr v : (exists l, as_list v = Some l) <-> exists l, v = JArr l.
Proof. split; intros (l & E); [destruct v; try discriminate E; now exists l0 | subst v; now exists l]. Qed.
Lemma name_some d : (exists s, name_of d = Some s) <-> exists s, at_key "fullname" d = JStr s.
Proof. unfold name_of. split; intros (s & E); [destruct (at_key "fullname" d); try discriminate E; now exists s0 | exists s; now rewrite E]. Qed.

Lemma no_stop_byte m :
  no_stop (byte_steps m) <->
  (exists s, at_key "fullname" m = JStr s) /\
  (one_of (name_of m) ["NNet.Replay"; "NNet.Game"] = true -> (exists l, at_key "decls" m = JArr l) /\
   forall c, In c (decls_of m) -> one_of (name_of c) ["NNet.Replay.Tracker"] = true ->
     (exists l, at_key "decls" c = JArr l) /\ forall t, In t (decls_of c) -> exists s, at_key "fullname" t = JStr s).
Proof.
  rewrite <- name_some. unfold byte_steps. destruct (name_of m) as [full|].
  2: { unfold no_stop. cbn [In]. split; [tauto | intros [(s & E) _]; discriminate E]. }
  rewrite !no_stop_app, no_stop_if, no_stop_over, as_list_arr. cbn [one_of existsb]. rewrite orb_false_r.
  assert (Sub : (forall x, In x (decls_of m) -> no_stop
      (code_if (named_one x ["NNet.Replay.SHeader"]) ByteAligned x ++
       steps_if (named_one x ["NNet.Replay.Tracker"]) (steps_over (as_list (at_key "decls" x)) (fun t => match name_of t with
          | Some tn => code_if (starts "NNet.Replay.Tracker.S" tn || String.eqb tn "NNet.Replay.Tracker.EEventId") ByteAligned t
          | None => [GStop] end)) ++
       code_if (named_one x ["NNet.Game.CPlayerDetailsArray"; "NNet.Game.SDetails"; "NNet.Game.SPlayerDetails"; "NNet.Game.SThumbnail";
                             "NNet.Game.EGameSpeed"; "NNet.Game.EResultDetails"; "NNet.Game.SToonNameDetails"; "NNet.Game.SColor"]) ByteAligned x)) <->
    forall c, In c (decls_of m) -> one_of (name_of c) ["NNet.Replay.Tracker"] = true ->
     (exists l, at_key "decls" c = JArr l) /\ forall t, In t (decls_of c) -> exists s, at_key "fullname" t = JStr s).
  { assert (forall c, no_stop
      (code_if (named_one c ["NNet.Replay.SHeader"]) ByteAligned c ++
       steps_if (named_one c ["NNet.Replay.Tracker"]) (steps_over (as_list (at_key "decls" c)) (fun t => match name_of t with
          | Some tn => code_if (starts "NNet.Replay.Tracker.S" tn || String.eqb tn "NNet.Replay.Tracker.EEventId") ByteAligned t
          | None => [GStop] end)) ++
       code_if (named_one c ["NNet.Game.CPlayerDetailsArray"; "NNet.Game.SDetails"; "NNet.Game.SPlayerDetails"; "NNet.Game.SThumbnail";
                             "NNet.Game.EGameSpeed"; "NNet.Game.EResultDetails"; "NNet.Game.SToonNameDetails"; "NNet.Game.SColor"]) ByteAligned c) <->
      (one_of (name_of c) ["NNet.Replay.Tracker"] = true ->
     (exists l, at_key "decls" c = JArr l) /\ forall t, In t (decls_of c) -> exists s, at_key "fullname" t = JStr s)) as One.
    { intros c. rewrite !no_stop_app, no_stop_if, no_stop_over, as_list_arr, <- named_one_of. fold (decls_of c).
      assert (In1 : (forall x, In x (decls_of c) -> no_stop match name_of x with
          | Some tn => code_if (starts "NNet.Replay.Tracker.S" tn || String.eqb tn "NNet.Replay.Tracker.EEventId") ByteAligned x
          | None => [GStop] end) <-> forall t, In t (decls_of c) -> exists s, at_key "fullname" t = JStr s).
      { split; intros H t I; specialize (H t I).
        - rewrite <- name_some. destruct (name_of t) as [tn|]; [now exists tn|]. exfalso. apply H. now left.
        - rewrite <- name_some in H. destruct H as (s & ->). apply no_stop_code. }
      rewrite In1. pose proof (no_stop_code (named_one c ["NNet.Replay.SHeader"]) ByteAligned c) as N1.
      pose proof (no_stop_code (named_one c ["NNet.Game.CPlayerDetailsArray"; "NNet.Game.SDetails"; "NNet.Game.SPlayerDetails"; "NNet.Game.SThumbnail";
                             "NNet.Game.EGameSpeed"; "NNet.Game.EResultDetails"; "NNet.Game.SToonNameDetails"; "NNet.Game.SColor"]) ByteAligned c) as N2.
      split; [intros (_ & H & _); exact H | intros H; auto]. }
    split; intros H c I; apply (One c), (H c I). }
  fold (decls_of m). rewrite Sub.
  pose proof (fun b => no_stop_code b ByteAligned m) as N.
  split.
  - intros (_ & _ & _ & _ & H). split; [now exists full | exact H].
  - intros (_ & H). auto.
Qed.
Lemma no_stop_bit m :
  no_stop (bit_steps m) <->
  (exists s, at_key "fullname" m = JStr s) /\
  (one_of (name_of m) ["NNet.Replay"; "NNet.Game"] = true -> exists l, at_key "decls" m = JArr l) /\
  (one_of (name_of m) ["NNet.Game"] = true -> forall c, In c (decls_of m) ->
     one_of (name_of c) ["NNet.Game.STriggerDialogControlEvent"] = true -> exists l, at_key "fields" (at_key "type_info" c) = JArr l).
Proof.
  rewrite <- name_some. unfold bit_steps. destruct (name_of m) as [full|].
  2: { unfold no_stop. cbn [In]. split; [tauto | intros [(s & E) _]; discriminate E]. }
  rewrite !no_stop_app, !no_stop_if, !no_stop_over, !as_list_arr. cbn [one_of existsb]. rewrite !orb_false_r.
  pose proof (fun b d => no_stop_code b BitPacked d) as N. fold (decls_of m).
  assert (One : forall c, no_stop (steps_if (negb (named_one c ["NNet.Game.ESenders"]))
               (code_if true BitPacked c ++
                steps_if (named_one c ["NNet.Game.STriggerDialogControlEvent"])
                  (steps_over (as_list (at_key "fields" (at_key "type_info" c))) (fun f =>
                     code_if (is_text "m_eventData" (at_key "name" f)) BitPacked f)))) <->
       (one_of (name_of c) ["NNet.Game.STriggerDialogControlEvent"] = true -> exists l, at_key "fields" (at_key "type_info" c) = JArr l)).
  { intros c. rewrite no_stop_if, no_stop_app, no_stop_if, no_stop_over, as_list_arr, !named_one_of. split.
    - intros H T. apply H; [|exact T]. destruct (name_of c) as [n|]; [|discriminate T]. cbn [one_of existsb] in T |- *. rewrite orb_false_r in T.
      apply String.eqb_eq in T. subst n. reflexivity.
    - intros H _. split; [apply N|]. intros T. split; [exact (H T) | intros f _; apply N]. }
  split.
  - intros (_ & _ & _ & H1 & _ & _ & H2). split; [now exists full|]. split.
    + intros T. apply orb_true_iff in T. destruct T as [T|T]; [exact (proj1 (H1 T)) | exact (proj1 (H2 T))].
    + intros T c I. apply One, (proj2 (H2 T) c I).
  - intros (_ & H1 & H2). repeat split; try apply N.
    + apply H1. now rewrite H.
    + intros x I. apply N.
    + apply H1. now rewrite H, orb_true_r.
    + intros c I. apply One. now apply H2.
Qed.
Lemma no_stop_file source mods :
  (forall m, In m mods -> one_of (name_of m) ["NNet.Replay"; "NNet.Game"] = true -> exists l, at_key "decls" m = JArr l) ->
  (no_stop (file_steps source mods) <-> shape_fine mods).
Proof.
  intros D. unfold file_steps. rewrite !no_stop_app, !no_stop_flat. unfold shape_fine.
  assert (L : forall a b c d, no_stop [GPiece a; GPiece b; GPiece c; GPiece d]) by (intros a b c d; unfold no_stop; cbn [In]; intuition discriminate).
  assert (L1 : forall a, no_stop [GPiece a]) by (intros a; unfold no_stop; cbn [In]; intuition discriminate).
  split.
  - intros (_ & H1 & _ & H2 & _). split; [|split].
    + intros m I. exact (proj1 (proj1 (no_stop_byte m) (H1 m I))).
    + intros m c I J M. exact (proj2 (proj2 (proj1 (no_stop_byte m) (H1 m I)) M) c J).
    + intros m c I J M. exact (proj2 (proj2 (proj1 (no_stop_bit m) (H2 m I))) M c J).
  - intros (A & B & C). split; [apply L|]. split; [|split; [apply L|split; [|apply L1]]].
    + intros m I. apply no_stop_byte. split; [exact (A m I)|]. intros M. split; [exact (D m I M)|]. intros c J. exact (B m c I J M).
    + intros m I. apply no_stop_bit. split; [exact (A m I)|]. split; [exact (D m I)|]. intros M c J. exact (C m c I J M).
Qed.
