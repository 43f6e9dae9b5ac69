(** * Facts about the short reader of the header *)
From Verif Require Import Base VlqSpec Vlq VlqProofs Types Versioned VersionedSpec VersionedProofs VersionedEncode VersionedPrim ByteTypes ByteFacts Header.
#[local] Open Scope string_scope.
#[local] Open Scope Z_scope.
#[local] Open Scope list_scope.

(** What is stored in a field stays. *)
Definition kept (s s' : slot) : Prop := fst s = fst s' /\ (f_init (fst (fst s)) = InitNone -> forall v, snd s = Some v -> snd s' = Some v).
Lemma kept_refl : forall l, Forall2 kept l l. Proof. induction l as [|s l IH]; constructor; [split; auto|exact IH]. Qed.
Lemma step_keeps : forall slots tag l r slots', struct_step slots tag l = SStored (Ok (r, slots')) -> Forall2 kept slots slots'.
Proof.
  induction slots as [|[[fd p] cur] slots IH]; intros tag l r slots' E; cbn [struct_step] in E; [discriminate|].
  destruct (f_tag fd =? tag).
  - destruct (slot_free (fd, p, cur)) eqn:Ef; [|discriminate]. destruct (p l) as [[t v]|e|]; cbn [obind] in E; try discriminate. injection E as <- <-.
    constructor; [|apply kept_refl]. split; [reflexivity|]. cbn [fst snd]. intros Hi w ->. unfold slot_free in Ef. rewrite Hi in Ef. discriminate.
  - destruct (struct_step slots tag l) as [|n t|o] eqn:Es; try discriminate. destruct o as [[t s]|e|]; cbn [obind] in E; try discriminate. injection E as <- <-.
    constructor; [split; auto|]. eapply IH. exact Es.
Qed.
Lemma kept_trans : forall a b c, Forall2 kept a b -> Forall2 kept b c -> Forall2 kept a c.
Proof.
  intros a b c H. revert c. induction H as [|x y a b [E1 K1] _ IH]; intros c Hc; inversion Hc as [|? z ? c' [E2 K2] Hc']; subst; constructor; [|now apply IH].
  split; [congruence|]. intros Hi v Hv. apply K2; [now rewrite <- E1|]. now apply K1.
Qed.
Lemma loop_keeps : forall m f n slots l r slots', struct_loop f m n slots l = Ok (r, slots') -> Forall2 kept slots slots'.
Proof.
  intros m. induction f as [|f IH]; intros n slots l r slots' E; cbn [struct_loop] in E.
  - destruct (n =? 0); [injection E as <- <-; apply kept_refl|discriminate].
  - destruct (n =? 0); [injection E as <- <-; apply kept_refl|]. apply obind_ok in E as ([t g] & _ & E).
    destruct (struct_step slots g t) as [|x y|o] eqn:Es; try discriminate. apply obind_ok in E as ([t' s'] & Eo & E). subst o.
    eapply kept_trans; [eapply step_keeps; exact Es|]. eapply IH. exact E.
Qed.
Lemma validate_ok : forall t l r, validate_tag t l = Ok r -> l = t :: r.
Proof. intros t [|b l] r E; cbn in E; [discriminate|]. destruct (Z.eqb_spec b t) as [->|]; [injection E as <-; reflexivity|discriminate]. Qed.
Definition field (n : string) (v : val) (x : val) : Prop := exists fs, v = VStruct fs /\ In (n, x) fs.
Definition one_slot (m : build) (n : string) (t : Z) (ty : vty) (c : option val) : slot := (mkfld n t t InitNone FinReq tt, vparse m ty, c).
Definition other_slots (m : build) : list slot :=
  [one_slot m "m_type" 2 (TInt IU8) None; one_slot m "m_elapsed_game_loops" 3 (TInt IU32) None; one_slot m "m_use_scaled_time" 4 TBool None;
   one_slot m "m_ngdp_root_key" 5 ba_Smd5 None; one_slot m "m_data_build_num" 6 (TInt IU32) None; one_slot m "m_replay_compatibility_hash" 7 ba_Smd5 None;
   one_slot m "m_ngdp_root_key_is_dev_data" 8 TBool None].
Definition header_slots (m : build) : list slot := one_slot m "m_signature" 0 TBlob None :: one_slot m "m_version" 1 ba_SVersion None :: other_slots m.
Lemma first_round : forall m f l l5 s, tagged_blob m l = Ok (2 :: l5, s) ->
  struct_loop (Datatypes.S f) m 9 (header_slots m) (0 :: l) = struct_loop f m 8 (one_slot m "m_signature" 0 TBlob (Some (VBytes s)) :: one_slot m "m_version" 1 ba_SVersion None :: other_slots m) (2 :: l5).
Proof.
  intros m f l l5 s E. cbn [struct_loop]. change (9 =? 0) with false. cbv iota. change (parse_vlq_int m (0 :: l)) with (Ok (l, 0)). cbn [obind].
  unfold header_slots. cbn [struct_step one_slot]. cbn [f_tag]. change (0 =? 0) with true. cbv iota. cbn [slot_free f_init]. cbn [vparse]. rewrite E. cbn [obind]. reflexivity.
Qed.
Lemma second_round : forall m f l l6 a v, vparse m ba_SVersion l = Ok (l6, v) ->
  struct_loop (Datatypes.S f) m 8 (one_slot m "m_signature" 0 TBlob a :: one_slot m "m_version" 1 ba_SVersion None :: other_slots m) (2 :: l) =
  struct_loop f m 7 (one_slot m "m_signature" 0 TBlob a :: one_slot m "m_version" 1 ba_SVersion (Some v) :: other_slots m) l6.
Proof.
  intros m f l l6 a v E. cbn [struct_loop]. change (8 =? 0) with false. cbv iota. change (parse_vlq_int m (2 :: l)) with (Ok (l, 1)). cbn [obind].
  remember (other_slots m) as others. cbn [struct_step one_slot]. cbn [f_tag]. change (0 =? 1) with false. change (1 =? 1) with true. cbv iota. cbn [slot_free f_init]. rewrite E. cbn [obind]. reflexivity.
Qed.
(** If both readers read the header they read the same. *)
Lemma readers_agree : forall m l r s ver r' v, header_parse m l = Ok (r, (s, ver)) -> vparse m ba_ReplaySHeader l = Ok (r', v) ->
  exists rest, v = VStruct (("m_signature", VBytes s) :: ("m_version", ver) :: rest) /\ forall n x, In (n, x) rest -> n <> "m_signature" /\ n <> "m_version".
Proof.
  intros m l r s ver r' v Eh Ev. unfold header_parse in Eh.
  apply obind_ok in Eh as (l1 & E1 & Eh). apply validate_ok in E1 as ->. apply obind_ok in Eh as (l2 & E2 & Eh). apply validate_ok in E2 as ->.
  apply obind_ok in Eh as ([l3 s'] & E3 & Eh). unfold header_signature in E3. apply obind_ok in E3 as (l4 & E4 & E3). apply validate_ok in E4 as ->.
  apply obind_ok in Eh as (l5 & E5 & Eh). apply validate_ok in E5 as ->. apply obind_ok in Eh as ([l6 ver'] & E6 & Eh). injection Eh as <- <- <-.
  unfold ba_ReplaySHeader in Ev. change (parse_struct m (header_slots m) (STRUCT_TAG :: 18 :: 0 :: l4) = Ok (r', v)) in Ev.
  unfold parse_struct in Ev. change (validate_tag STRUCT_TAG (STRUCT_TAG :: 18 :: 0 :: l4)) with (Ok (18 :: 0 :: l4)) in Ev. cbn [obind] in Ev.
  change (parse_vlq_int m (18 :: 0 :: l4)) with (Ok (0 :: l4, 9)) in Ev. cbn [obind] in Ev. change (as_u64 9) with 9 in Ev.
  apply obind_ok in Ev as ([t slots'] & El & Ev). cbn [length] in El. rewrite first_round with (l5 := l5) (s := s') in El by exact E3. 
  rewrite second_round with (l6 := l6) (v := ver') in El by exact E6.
  apply loop_keeps in El. 
  inversion El as [|? sa ? ra Ka El1]; subst. inversion El1 as [|? sb ? rb Kb El2]; subst. clear El El1.
  destruct sa as [[fa pa] ca], sb as [[fb pb] cb]. destruct Ka as [Ea Ka], Kb as [Eb Kb]. cbn [fst snd f_init] in *. injection Ea as <- <-. injection Eb as <- <-.
  specialize (Ka eq_refl _ eq_refl). specialize (Kb eq_refl _ eq_refl). subst ca cb.
  apply obind_ok in Ev as (fs & Ef & Ev). injection Ev as <- <-. cbn [struct_finish obind f_name] in Ef. apply obind_ok in Ef as (vs & Ef & Efs).
  apply obind_ok in Ef as (rest & Er & Ef). injection Ef as <-. injection Efs as <-. exists rest. split; [reflexivity|].
  assert (N : forall sl fs0, struct_finish sl = Ok fs0 -> map fst fs0 = map (fun s : slot => f_name (fst (fst s))) sl).
  { clear. induction sl as [|[[fd p] c] sl IH]; intros fs0 E; cbn [struct_finish] in E; [injection E as <-; reflexivity|]. apply obind_ok in E as (v & _ & E). apply obind_ok in E as (vs & Es & E). injection E as <-. cbn. now rewrite (IH _ Es). }
  specialize (N _ _ Er). intros n x Hi. apply (in_map fst) in Hi. cbn [fst] in Hi. rewrite N in Hi. clear - El2 Hi.
  assert (M : map (fun s : slot => f_name (fst (fst s))) rb = map (fun s : slot => f_name (fst (fst s))) (other_slots m)).
  { clear Hi. induction El2 as [|x y a b [E _] _ IH]; [reflexivity|]. cbn [map]. now rewrite E, IH. }
  rewrite M in Hi. cbn [other_slots one_slot map fst snd f_name] in Hi. repeat (destruct Hi as [<-|Hi]; [split; discriminate|]). destruct Hi.
Qed.
(** The short reader reads what the reference encoder writes. *)
Lemma short_reads : forall m v bs rest, vencode ba_ReplaySHeader v = Some bs ->
  exists s ver fs tail, v = VStruct (("m_signature", VBytes s) :: ("m_version", ver) :: fs) /\ header_parse m (bs ++ rest) = Ok (tail, (s, ver)).
Proof.
  intros m v bs rest E. unfold ba_ReplaySHeader in E. destruct v as [| | | | | | | |vals]; try discriminate. cbn [vencode] in E.
  apply opt_bind_some in E as (ws & Ew & E). apply opt_bind_some in E as (g & Eg & E). injection E as <-. cbn [map] in Ew.
  destruct vals as [|[n1 v1] vals]; cbn [enc_fields f_name f_tag f_ty] in Ew; [discriminate|]. destruct (String.eqb_spec n1 "m_signature") as [->|]; [|discriminate].
  apply opt_bind_some in Ew as (t1 & Et1 & Ew). apply opt_bind_some in Ew as (b1 & Eb1 & Ew). apply opt_bind_some in Ew as (ws1 & Ew1 & Ew). injection Ew as <-.
  destruct vals as [|[n2 v2] vals]; cbn [enc_fields f_name f_tag f_ty] in Ew1; [discriminate|]. destruct (String.eqb_spec n2 "m_version") as [->|]; [|discriminate].
  apply opt_bind_some in Ew1 as (t2 & Et2 & Ew1). apply opt_bind_some in Ew1 as (b2 & Eb2 & Ew1). apply opt_bind_some in Ew1 as (ws2 & Ew2 & Ew1). injection Ew1 as <-.
  change (enc_num 0) with (Some [0]) in Et1. change (enc_num 1) with (Some [2]) in Et2. injection Et1 as <-. injection Et2 as <-.
  assert (L : length ws2 = 7%nat).
  { pose proof (enc_fields_ok [mkfld "m_type" 2 2 InitNone FinReq (TInt IU8); mkfld "m_elapsed_game_loops" 3 3 InitNone FinReq (TInt IU32); mkfld "m_use_scaled_time" 4 4 InitNone FinReq TBool;
      mkfld "m_ngdp_root_key" 5 5 InitNone FinReq ba_Smd5; mkfld "m_data_build_num" 6 6 InitNone FinReq (TInt IU32); mkfld "m_replay_compatibility_hash" 7 7 InitNone FinReq ba_Smd5;
      mkfld "m_ngdp_root_key_is_dev_data" 8 8 InitNone FinReq TBool] vals ws2) as K.
    destruct K as (K & _).
    - intros f x b Hf Hx. apply vencode_venc; [|exact Hx]. cbn in Hf. repeat (destruct Hf as [<-|Hf]; [reflexivity|]). destruct Hf.
    - exact Ew2.
    - apply (f_equal (@length _)) in K. rewrite map_length in K. exact K. }
  cbn [length] in Eg. rewrite L in Eg. change (enc_num (Z.of_nat 9)) with (Some [18]) in Eg. injection Eg as <-.
  destruct v1 as [|s| | | | | | |]; try discriminate. exists s, v2, vals.
  cbn [map concat w_tag w_bytes app]. change (VersionedEncode.vencode TBlob (VBytes s) = Some b1) in Eb1.
  assert (R1 : forall r, tagged_blob m (b1 ++ r) = Ok (r, s)).
  { intros r. pose proof (vencode_round_trip m TBlob (VBytes s) b1 r eq_refl Eb1) as K. cbn [vparse] in K. apply obind_ok in K as ([t b] & Kb & K). injection K as <- <-. exact Kb. }
  eexists. split; [reflexivity|]. unfold header_parse. cbn [validate_tag]. change (STRUCT_TAG =? STRUCT_TAG) with true. cbv iota. cbn [obind validate_tag]. change (18 =? 18) with true. cbv iota. cbn [obind].
  unfold header_signature. cbn [validate_tag]. change (0 =? 0) with true. cbv iota. cbn [obind]. rewrite <- app_assoc, R1. cbn [obind app validate_tag]. change (2 =? 2) with true. cbv iota. cbn [obind].
  rewrite <- app_assoc. rewrite (vencode_round_trip m ba_SVersion v2 b2 _ eq_refl Eb2). cbn [obind]. reflexivity.
Qed.
