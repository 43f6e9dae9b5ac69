(** * Facts about the 25 extracted byte-aligned descriptors *)
From Verif Require Import Base VlqSpec Vlq VlqProofs Types Versioned VersionedSpec VlqExact VersionedProofs VersionedExact VersionedEncode ByteTypes.
#[local] Open Scope string_scope.
#[local] Open Scope Z_scope.
#[local] Open Scope list_scope.

Lemma ba_wf_b : forallb (fun x => wf_vty (snd x)) ba_all = true.
Proof. vm_compute. reflexivity. Qed.

Lemma ba_wf : forall n t, In (n, t) ba_all -> wf_vty t = true.
Proof. intros n t H. pose proof ba_wf_b as Hb. rewrite forallb_forall in Hb. exact (Hb _ H). Qed.

Lemma ba_count : length ba_all = 25%nat.
Proof. reflexivity. Qed.

(** Types whose every field reports its own tag, recursively. *)
Fixpoint dup_ok (t : vty) : bool :=
  match t with
  | TInt _ | TBlob | TBool | TFourcc | TEnum _ => true
  | TOpt t' | TArray t' => dup_ok t'
  | TChoice _ l => forallb (fun x => dup_ok (snd x)) l
  | TStruct fs => forallb (fun f => Z.eqb (f_dup f) (f_tag f) && dup_ok (f_ty f)) fs
  end.

(** The types where the reported tag differs for some field. *)
Definition bad_dup_types : list string :=
  map fst (filter (fun x => negb (dup_ok (snd x))) ba_all).

Lemma bad_dup_types_eq : bad_dup_types =
  ["ReplayTrackerSUnitBornEvent"; "ReplayTrackerSUnitDiedEvent"; "ReplayTrackerSUnitOwnerChangeEvent";
   "ReplayTrackerEEventId"].
Proof. vm_compute. reflexivity. Qed.

Lemma dup_own_tag : forall n fs, In (n, TStruct fs) ba_all -> ~ In n bad_dup_types ->
  forall f, In f fs -> f_dup f = f_tag f.
Proof.
  intros n fs Hin Hn f Hf.
  assert (Hd : dup_ok (TStruct fs) = true).
  { destruct (dup_ok (TStruct fs)) eqn:E; [reflexivity|]. exfalso. apply Hn. unfold bad_dup_types.
    apply in_map_iff. exists (n, TStruct fs). split; [reflexivity|]. apply filter_In. split; [assumption|].
    cbn [snd]. rewrite E. reflexivity. }
  cbn [dup_ok] in Hd. rewrite forallb_forall in Hd. specialize (Hd f Hf). apply andb_true_iff in Hd. lia.
Qed.

(** A UnitBorn event, all fields but the creator's tag written, which is then
    written twice. *)
Definition dup_born : list Z :=
  [5; 24;                       (* struct of 12 fields announced *)
   0; 9; 2;  2; 9; 4;           (* m_unit_tag_index = 1, m_control... *)
   14; 4; 1; 9; 10;             (* field 7: Some 5 *)
   14].                         (* field 7 again *)

Lemma dup_born_result : forall m, vparse m ba_ReplayTrackerSUnitBornEvent dup_born
  = Err (EDuplicateTag "m_creator_unit_tag_index" 8).
Proof. intros []; vm_compute; reflexivity. Qed.

(** An optional field written twice, [None] first: accepted. *)
Definition dup_none : list Z :=
  [5; 8;                        (* 4 fields *)
   0; 9; 2;  2; 9; 4;           (* m_player_id = 1, m_type = 2 *)
   4; 4; 0;                     (* m_user_id: None *)
   4; 4; 1; 9; 10].             (* m_user_id again: Some 5 *)

Lemma dup_none_result : forall m, vparse m ba_ReplayTrackerSPlayerSetupEvent dup_none
  = Ok ([], VStruct [("m_player_id", VInt 1); ("m_type", VInt 2); ("m_user_id", VOpt (Some (VInt 5))); ("m_slot_id", VOpt None)]).
Proof. intros []; vm_compute; reflexivity. Qed.

(** A struct whose field count is padded to eleven bytes. *)
Definition panic_struct : list Z := 5 :: repeat 128 10 ++ [0].
Lemma panic_struct_result : vparse Checked ba_SVersion panic_struct = Panic.
Proof. vm_compute; reflexivity. Qed.

Lemma ba_unambiguous : forall name t v1 v2 bs1 bs2 r1 r2, In (name, t) ba_all ->
  venc true t v1 bs1 -> venc true t v2 bs2 -> bs1 ++ r1 = bs2 ++ r2 -> v1 = v2 /\ r1 = r2.
Proof.
  intros name t v1 v2 bs1 bs2 r1 r2 Hin H1 H2 E. apply ba_wf in Hin.
  pose proof (vparse_complete true Checked t v1 bs1 r1 Hin H1) as E1.
  pose proof (vparse_complete true Checked t v2 bs2 r2 Hin H2) as E2.
  rewrite E in E1. rewrite E1 in E2. injection E2 as -> ->. auto.
Qed.

Lemma malformed_witness :
  (exists l, forall m, vparse m ba_ReplayTrackerSPlayerSetupEvent l
     = Ok ([], VStruct [("m_player_id", VInt 1); ("m_type", VInt 2); ("m_user_id", VOpt (Some (VInt 5))); ("m_slot_id", VOpt None)])
     /\ l = [5; 8] ++ [0; 9; 2] ++ [2; 9; 4] ++ [4; 4; 0] ++ [4; 4; 1; 9; 10]) /\
  (exists l, bytes_ok l /\ vparse Checked ba_SVersion l = Panic).
Proof.
  split.
  - exists dup_none. intros m. split; [apply dup_none_result|reflexivity].
  - exists panic_struct. split; [repeat constructor; discriminate|apply panic_struct_result].
Qed.

Lemma dup_own_tag_list : forall n fs, In (n, TStruct fs) ba_all ->
  n <> "ReplayTrackerSUnitBornEvent" -> n <> "ReplayTrackerSUnitDiedEvent" -> n <> "ReplayTrackerSUnitOwnerChangeEvent" ->
  forall f, In f fs -> f_dup f = f_tag f.
Proof.
  intros n fs Hin H1 H2 H3. 
  destruct (string_dec n "ReplayTrackerEEventId") as [->|H4].
  - exfalso. unfold ba_all in Hin. cbn [In] in Hin.
    repeat (destruct Hin as [Hin|Hin]; [discriminate Hin|]). exact Hin.
  - apply (dup_own_tag n); [assumption|]. rewrite bad_dup_types_eq. cbn. intuition congruence.
Qed.

Lemma dup_error_list : forall n s m fs ws w g count gz rest, In (n, TStruct fs) ba_all ->
  n <> "ReplayTrackerSUnitBornEvent" -> n <> "ReplayTrackerSUnitDiedEvent" -> n <> "ReplayTrackerSUnitOwnerChangeEvent" ->
  vlq_rep s count g -> Z.of_nat (length ws) < count -> written_ok s fs ws ->
  In w ws -> (f_init (w_fld w) = InitNone \/ w_val w <> VOpt None) ->
  vlq_rep s (f_tag (w_fld w)) gz ->
  vparse m (TStruct fs) (STRUCT_TAG :: g ++ wbytes ws ++ gz ++ rest)
  = Err (EDuplicateTag (f_name (w_fld w)) (f_tag (w_fld w))).
Proof.
  intros n s m fs ws w g count gz rest Hin H1 H2 H3 Hg Hc Hws Hw Hd Hz.
  rewrite (struct_duplicate s m fs ws w g count gz rest (ba_wf _ _ Hin)) by assumption.
  rewrite (dup_own_tag_list n fs); try assumption; [reflexivity|].
  destruct Hws as [Hws _]. rewrite Forall_forall in Hws. apply Hws; assumption.
Qed.

Lemma dup_born_witness : exists l, forall m,
  vparse m ba_ReplayTrackerSUnitBornEvent l = Err (EDuplicateTag "m_creator_unit_tag_index" 8) /\
  In (mkfld "m_creator_unit_tag_index" 7 8 InitSomeNone FinReq (TOpt (TInt IU32)))
     (match ba_ReplayTrackerSUnitBornEvent with TStruct fs => fs | _ => [] end).
Proof. exists dup_born. intros m. split; [apply dup_born_result|]. vm_compute. tauto. Qed.

Lemma rep1 : forall z b, 0 <= b < 128 -> z = vlq_value [b] -> vlq_rep true z [b].
Proof.
  intros z b Hb ->. repeat split; try (cbn; lia).
  - repeat constructor; cbn; lia.
  - cbn. unfold two63. pose proof (Z.mod_pos_bound (b / 2) 64). lia.
Qed.

Lemma example_color_venc : venc true ba_GameSColor
  (VStruct [("m_a", VInt 255); ("m_r", VInt 1); ("m_g", VInt 2); ("m_b", VInt 3)])
  [5; 8; 6; 9; 6; 0; 9; 254; 3; 4; 9; 4; 2; 9; 2].
Proof.
  pose (F := fun n t => mkfld n t t InitNone FinReq (TInt IU8)).
  pose (ws := [mkw (F "m_b" 3) [6] (VInt 3) [9; 6]; mkw (F "m_a" 0) [0] (VInt 255) [9; 254; 3];
               mkw (F "m_g" 2) [4] (VInt 2) [9; 4]; mkw (F "m_r" 1) [2] (VInt 1) [9; 2]]).
  apply (enc_struct true _ ws [8]).
  - apply rep1; [lia|reflexivity].
  - assert (R2 : vlq_rep true 255 [254; 3]).
    { repeat split; try (cbn; lia); try (vm_compute; reflexivity). repeat constructor; cbn; lia. }
    repeat (apply Forall_cons; [split; [cbn; tauto|split]|]); [..|apply Forall_nil].
    all: cbn [w_fld w_tag w_val w_bytes F f_tag f_ty].
    all: try (apply rep1; [lia|reflexivity]).
    all: apply enc_int; [reflexivity|first [exact R2|apply rep1; [lia|reflexivity]]].
  - cbn. repeat constructor; cbn; intuition congruence.
  - assert (G : forall p w q n v, ws = p ++ w :: q -> n = f_name (w_fld w) -> v = w_val w ->
       fst (n, v) = f_name (w_fld w) /\ field_value ws (w_fld w) (snd (n, v))).
    { intros p w q n v E -> ->. split; [reflexivity|]. left. exists p, w, q. repeat split; auto.
      assert (Hnd : NoDup (map (fun w => f_tag (w_fld w)) ws)) by (cbn; repeat constructor; cbn; intuition congruence).
      rewrite E, map_app in Hnd. cbn [map] in Hnd. apply NoDup_app_notin in Hnd. intros w' Hw' Et. apply (proj2 Hnd).
      rewrite <- Et. apply in_map_iff. exists w'. auto. }
    repeat (apply Forall2_cons; [split; [reflexivity|]|]); [..|apply Forall2_nil].
    + exact (proj2 (G [_] _ _ "m_a" (VInt 255) eq_refl eq_refl eq_refl)).
    + exact (proj2 (G [_; _; _] _ [] "m_r" (VInt 1) eq_refl eq_refl eq_refl)).
    + exact (proj2 (G [_; _] _ _ "m_g" (VInt 2) eq_refl eq_refl eq_refl)).
    + exact (proj2 (G [] _ _ "m_b" (VInt 3) eq_refl eq_refl eq_refl)).
Qed.
