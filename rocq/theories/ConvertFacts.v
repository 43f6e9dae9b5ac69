From Coq Require Import Ascii.
From Verif Require Import Base Types Utf8 Utf8Facts Tags TagFacts Events Convert ConvertSpec Typed BitSpec BitPacked BitProofs BitInterp BitFormat BitTotal BitFacts Versioned ByteTypes ByteFacts BitTypes Dispatch.
#[local] Open Scope string_scope.
#[local] Open Scope Z_scope.
#[local] Open Scope list_scope.

(** ** Strings *)
Lemma bytes_of_str_of_bytes : forall l, bytes_ok l -> bytes_of_str (str_of_bytes l) = l.
Proof.
  induction l as [|b l IH]; intros Hl; [reflexivity|]. apply bytes_ok_cons in Hl as [Hb Hl].
  cbn [str_of_bytes fold_right bytes_of_str]. fold (str_of_bytes l). rewrite (IH Hl). f_equal.
  unfold Z_of_ascii, ascii_of_Z. unfold byte_ok in Hb. rewrite N_ascii_embedding; lia.
Qed.
Lemma from_utf8_bytes : forall l s, forallb in_u8 l = true -> from_utf8 l = Ok s -> bytes_of_str s = l.
Proof.
  unfold from_utf8. intros l s Hl E. destruct (utf8_ok l); [|discriminate]. injection E as <-.
  apply bytes_of_str_of_bytes. now apply byte_list_ok.
Qed.
Lemma from_utf8_cases : forall l, (exists s, from_utf8 l = Ok s) \/ from_utf8 l = Err EUtf8.
Proof. intros l. unfold from_utf8. destruct (utf8_ok l); eauto. Qed.

(** ** Inversion of typed values *)
Definition bfields (fs : list (string * bty)) (vs : list (string * val)) : bool :=
  forall2b (fun f x => String.eqb (fst f) (fst x) && btyped (snd f) (snd x)) fs vs.
Definition vfields (fs : list (fld vty)) (vs : list (string * val)) : bool :=
  forall2b (fun f x => String.eqb (f_name f) (fst x) && vtyped (f_ty f) (snd x)) fs vs.

Lemma bt_int : forall o n v, btyped (BInt o n) v = true -> Nat.ltb n 64 = true -> exists z, v = VInt z /\ o <= z < o + 2 ^ Z.of_nat n.
Proof.
  intros o n v E Hn. destruct v; try discriminate. cbn [btyped] in E. rewrite Hn in E. apply andb_true_iff in E as [E1 E2].
  apply Z.leb_le in E1. apply Z.ltb_lt in E2. eauto.
Qed.
Lemma bt_bool : forall v, btyped BBool v = true -> exists b, v = VBool b.
Proof. intros [] E; try discriminate; eauto. Qed.
Lemma bt_null : forall v, btyped BNull v = true -> v = VNull.
Proof. intros [] E; try discriminate; eauto. Qed.
Lemma bt_opt : forall t v, btyped (BOpt t) v = true -> v = VOpt None \/ exists w, v = VOpt (Some w) /\ btyped t w = true.
Proof. intros t v E; destruct v as [| | | |[w|]| | | |]; try discriminate; eauto. Qed.
Lemma bt_opt_reread : forall t v, btyped (BOptReread t) v = true -> v = VOpt None \/ exists w, v = VOpt (Some w) /\ btyped t w = true.
Proof. intros t v E; destruct v as [| | | |[w|]| | | |]; try discriminate; eauto. Qed.
Lemma bt_array : forall n t v, btyped (BArray n t) v = true -> exists l, v = VList l /\ Forall (fun w => btyped t w = true) l.
Proof.
  intros n t v E; destruct v; try discriminate. cbn [btyped] in E. apply andb_true_iff in E as [E _].
  exists l. split; [reflexivity|]. apply Forall_forall. now apply forallb_forall.
Qed.
Lemma bt_blob : forall n v, btyped (BBlob n) v = true -> exists l, v = VBytes l /\ forallb in_u8 l = true.
Proof. intros n [] E; try discriminate; eauto. Qed.
Lemma bt_bitarray : forall n v, btyped (BBitArray n) v = true -> exists l, v = VBytes l /\ forallb in_u8 l = true.
Proof. intros n [] E; try discriminate; eauto. Qed.
Lemma bt_enum : forall n l v, btyped (BEnum n l) v = true -> exists s, v = VEnum s /\ In s (map snd l).
Proof.
  intros n l v E; destruct v; try discriminate. cbn [btyped] in E. apply existsb_exists in E as (x & Hx & E).
  apply String.eqb_eq in E. subst. exists (snd x). split; [reflexivity|]. now apply in_map.
Qed.
Lemma bt_choice : forall n l v, btyped (BChoice n l) v = true ->
  exists z s t w, v = VChoice s w /\ In (z, s, t) l /\ btyped t w = true.
Proof.
  intros n l v E; destruct v; try discriminate. cbn [btyped] in E. apply existsb_exists in E as ([[z s'] t] & Hx & E).
  cbn [fst snd] in E. apply andb_true_iff in E as [E1 E2]. apply String.eqb_eq in E1. subst. exists z, s, t, v. auto.
Qed.
Lemma bt_struct : forall fs v, btyped (BStruct fs) v = true -> exists vs, v = VStruct vs /\ bfields fs vs = true.
Proof. intros fs [] E; try discriminate; eauto. Qed.
Lemma bf_nil : forall vs, bfields [] vs = true -> vs = [].
Proof. intros [|? ?] E; [reflexivity|discriminate]. Qed.
Lemma bf_cons : forall n t fs vs, bfields ((n, t) :: fs) vs = true ->
  exists w vs', vs = (n, w) :: vs' /\ btyped t w = true /\ bfields fs vs' = true.
Proof.
  intros n t fs [|[k w] vs] E; [discriminate|]. unfold bfields in E. cbn [forall2b fst snd] in E.
  apply andb_true_iff in E as [E E2]. apply andb_true_iff in E as [E E1]. apply String.eqb_eq in E as <-. eauto.
Qed.

Lemma vt_int : forall t v, vtyped (TInt t) v = true -> exists z, v = VInt z /\ in_ity t z = true.
Proof. intros t [] E; try discriminate; eauto. Qed.
Lemma vt_blob : forall v, vtyped TBlob v = true -> exists l, v = VBytes l /\ forallb in_u8 l = true.
Proof. intros [] E; try discriminate; eauto. Qed.
Lemma vt_opt : forall t v, vtyped (TOpt t) v = true -> v = VOpt None \/ exists w, v = VOpt (Some w) /\ vtyped t w = true.
Proof. intros t v E; destruct v as [| | | |[w|]| | | |]; try discriminate; eauto. Qed.
Lemma vt_array : forall t v, vtyped (TArray t) v = true -> exists l, v = VList l /\ Forall (fun w => vtyped t w = true) l.
Proof.
  intros t v E; destruct v; try discriminate. cbn [vtyped] in E.
  exists l. split; [reflexivity|]. apply Forall_forall. now apply forallb_forall.
Qed.
Lemma vt_choice : forall n l v, vtyped (TChoice n l) v = true ->
  exists z s t w, v = VChoice s w /\ In (z, s, t) l /\ vtyped t w = true.
Proof.
  intros n l v E; destruct v; try discriminate. cbn [vtyped] in E. apply existsb_exists in E as ([[z s'] t] & Hx & E).
  cbn [fst snd] in E. apply andb_true_iff in E as [E1 E2]. apply String.eqb_eq in E1. subst. exists z, s, t, v. auto.
Qed.
Lemma vt_struct : forall fs v, vtyped (TStruct fs) v = true -> exists vs, v = VStruct vs /\ vfields fs vs = true.
Proof. intros fs [] E; try discriminate; eauto. Qed.
Lemma vf_nil : forall vs, vfields [] vs = true -> vs = [].
Proof. intros [|? ?] E; [reflexivity|discriminate]. Qed.
Lemma vf_cons : forall f fs vs, vfields (f :: fs) vs = true ->
  exists w vs', vs = (f_name f, w) :: vs' /\ vtyped (f_ty f) w = true /\ vfields fs vs' = true.
Proof.
  intros f fs [|[k w] vs] E; [discriminate|]. unfold vfields in E. cbn [forall2b fst snd] in E.
  apply andb_true_iff in E as [E E2]. apply andb_true_iff in E as [E E1]. apply String.eqb_eq in E as <-. eauto.
Qed.

Lemma bt_ints : forall o n l, Nat.ltb n 64 = true -> Forall (fun w => btyped (BInt o n) w = true) l ->
  exists zs, l = map VInt zs /\ Forall (fun z => o <= z < o + 2 ^ Z.of_nat n) zs.
Proof.
  intros o n l Hn; induction 1 as [|w l Hw _ (zs & -> & Hz)]; [exists []; split; [reflexivity|constructor]|].
  destruct (bt_int _ _ _ Hw Hn) as (z & -> & Hr). exists (z :: zs). split; [reflexivity|]. constructor; assumption.
Qed.
Lemma map_out_cast : forall c zs, Forall (fun z => c z = z) zs -> map_out (cast c) (map VInt zs) = Ok zs.
Proof. induction 1 as [|z zs E _ IH]; [reflexivity|]. cbn [map map_out cast to_int obind]. rewrite IH, E. reflexivity. Qed.
Lemma map_out_int : forall zs, map_out to_int (map VInt zs) = Ok zs.
Proof. induction zs as [|z zs IH]; [reflexivity|]. cbn [map map_out to_int obind]. now rewrite IH. Qed.
Lemma map_out_inv : forall A B (f : A -> outcome B) (g : B -> A) (P : A -> Prop), (forall a, P a -> exists b, f a = Ok b /\ g b = a) ->
  forall l, Forall P l -> exists l', map_out f l = Ok l' /\ map g l' = l.
Proof.
  intros A B f g P Hf; induction 1 as [|a l Ha _ (l' & E & El)]; [exists []; auto|].
  destruct (Hf a Ha) as (b & Eb & Hb). exists (b :: l'). cbn [map_out map]. rewrite Eb. cbn [obind]. rewrite E. cbn [obind]. split; congruence.
Qed.
Lemma vt_ints : forall t l, Forall (fun w => vtyped (TInt t) w = true) l -> exists zs, l = map VInt zs.
Proof.
  intros t; induction 1 as [|w l Hw _ (zs & ->)]; [exists []; reflexivity|].
  destruct (vt_int _ _ Hw) as (z & -> & _). exists (z :: zs). reflexivity.
Qed.

Lemma as_u8_id : forall z, 0 <= z < 256 -> as_u8 z = z.
Proof. intros. apply Z.mod_small. lia. Qed.
Lemma as_u16_id : forall z, 0 <= z < 65536 -> as_u16 z = z.
Proof. intros. apply Z.mod_small. lia. Qed.
Lemma as_u32_id : forall z, 0 <= z < two32 -> as_u32 z = z.
Proof. intros. apply Z.mod_small. lia. Qed.
Lemma as_i8_id : forall z, -128 <= z < 128 -> as_i8 z = z.
Proof. intros. unfold as_i8. rewrite Z.mod_small; lia. Qed.
Lemma as_i16_id : forall z, -32768 <= z < 32768 -> as_i16 z = z.
Proof. intros. unfold as_i16. rewrite Z.mod_small; lia. Qed.

Ltac fields1 :=
  match goal with
  | Hr : bfields [] ?vs = true |- _ => pose proof (bf_nil vs Hr) as ->; clear Hr
  | Hr : bfields ((?n, ?t) :: ?fs) ?vs = true |- _ =>
      let w := fresh "w" in let vs' := fresh "vs" in let Hw := fresh "Hw" in
      destruct (bf_cons n t fs vs Hr) as (w & vs' & -> & Hw & ?); clear Hr
  end.
Ltac btyp1 :=
  match goal with
  | Hr : btyped ?t ?v = true |- _ =>
      let t' := eval hnf in t in
      lazymatch t' with
      | BInt ?o ?n => let z := fresh "z" in let Hz := fresh "Hz" in
          destruct (bt_int o n v Hr eq_refl) as (z & -> & Hz); clear Hr;
          let b := eval vm_compute in (o + 2 ^ Z.of_nat n) in change (o <= z < b) in Hz
      | BBool => let b := fresh "b" in destruct (bt_bool v Hr) as (b & ->); clear Hr
      | BNull => pose proof (bt_null v Hr) as ->; clear Hr
      | BStruct ?fs => let vs := fresh "vs" in let Hv := fresh "Hv" in destruct (bt_struct fs v Hr) as (vs & -> & Hv); clear Hr
      | BBlob ?n => let l := fresh "l" in let Hl := fresh "Hl" in destruct (bt_blob n v Hr) as (l & -> & Hl); clear Hr
      | BBitArray ?n => let l := fresh "l" in let Hl := fresh "Hl" in destruct (bt_bitarray n v Hr) as (l & -> & Hl); clear Hr
      | BArray ?n ?t => let l := fresh "l" in let Hl := fresh "Hl" in destruct (bt_array n t v Hr) as (l & -> & Hl); clear Hr
      | BOpt ?t => let w := fresh "w" in let Hw := fresh "Hw" in destruct (bt_opt t v Hr) as [->|(w & -> & Hw)]; clear Hr
      | BOptReread ?t => let w := fresh "w" in let Hw := fresh "Hw" in destruct (bt_opt_reread t v Hr) as [->|(w & -> & Hw)]; clear Hr
      | BEnum ?n ?l => let s := fresh "s" in let Hs := fresh "Hs" in destruct (bt_enum n l v Hr) as (s & -> & Hs); clear Hr
      end
  end.
Ltac binv1 := first [fields1 | btyp1].
Ltac binv := repeat binv1.
Ltac run := cbn [get field lookup obind String.eqb Ascii.eqb Bool.eqb to_int to_bool to_bytes to_enum to_opt to_list cast].
Ltac ids := repeat first [rewrite as_u8_id by lia | rewrite as_u16_id by lia | rewrite as_u32_id by (unfold two32; lia) | rewrite as_i32_id by lia
  | rewrite as_i8_id by lia | rewrite as_i16_id by lia].

(** A conversion that can be undone: on values of type [t], [f] succeeds and [g] recovers them. *)
Definition inverts {A} (t : bty) (f : val -> outcome A) (g : A -> val) : Prop :=
  forall v, btyped t v = true -> exists a, f v = Ok a /\ g a = v.

Lemma coord3_inv : inverts bp_GameSMapCoord3D coord3_from coord_value.
Proof. intros v H. binv. unfold coord3_from. run. ids. eexists; split; reflexivity. Qed.
Lemma ui_inv : inverts bp_GameSuiCoord ui_coord_from ui_value.
Proof. intros v H. binv. unfold ui_coord_from. run. ids. eexists; split; reflexivity. Qed.
Lemma point_inv : inverts bp_GameSPointMini point_from point_value.
Proof. intros v H. binv. unfold point_from. run. eexists; split; reflexivity. Qed.
Lemma opt_inv : forall A t (f : val -> outcome A) g, inverts t f g -> inverts (BOpt t) (to_opt f) (v_opt g).
Proof.
  intros A t f g Hi v H. destruct (bt_opt _ _ H) as [->|(w & -> & Hw)]; [exists None; auto|].
  destruct (Hi w Hw) as (a & E & Eg). exists (Some a). cbn [to_opt]. rewrite E. cbn [obind]. unfold v_opt. rewrite <- Eg. auto.
Qed.
Lemma cast_inv : forall c o n, Nat.ltb n 64 = true -> (forall z, o <= z < o + 2 ^ Z.of_nat n -> c z = z) -> inverts (BInt o n) (cast c) VInt.
Proof. intros c o n Hn Hc v H. destruct (bt_int _ _ _ H Hn) as (z & -> & Hz). exists z. run. rewrite Hc by exact Hz. auto. Qed.
Lemma int_inv : forall o n, Nat.ltb n 64 = true -> inverts (BInt o n) to_int VInt.
Proof. intros o n Hn v H. destruct (bt_int _ _ _ H Hn) as (z & -> & Hz). exists z. auto. Qed.
Lemma array_inv : forall A n t (f : val -> outcome A) g, inverts t f g -> inverts (BArray n t) (to_list f) (fun l => VList (map g l)).
Proof.
  intros A n t f g Hi v H. destruct (bt_array _ _ _ H) as (l & -> & Hl).
  destruct (map_out_inv _ _ f g _ Hi l Hl) as (l' & E & El). exists l'. cbn [to_list]. rewrite E, El. auto.
Qed.
Lemma abil_inv : inverts bp_GameSCmdAbil cmd_abil_from abil_value.
Proof.
  intros v H. binv; unfold cmd_abil_from; run; ids; eexists; (split; [reflexivity|]); reflexivity.
Qed.
Ltac open_struct := btyp1; repeat fields1.

Lemma target_inv : inverts bp_GameSCmdDataTargetUnit target_unit_from target_value.
Proof.
  intros v H. open_struct. unfold target_unit_from. run.
  destruct (coord3_inv _ Hw5) as (c & E & <-). clear Hw5. binv; run; rewrite E; run; ids; eexists; (split; [reflexivity|]); reflexivity.
Qed.
Lemma In_cases : forall A (x : A) l P, Forall P l -> In x l -> P x.
Proof. intros A x l P Hf Hi. rewrite Forall_forall in Hf. now apply Hf. Qed.
Lemma cmd_data_inv : inverts bp_GameSCmdData cmd_data_from cmd_data_value.
Proof.
  intros v H. destruct (bt_choice _ _ _ H) as (z & s & t & w & -> & Hin & Hw). clear H.
  cbn [In] in Hin. destruct Hin as [E|[E|[E|[E|[]]]]]; injection E as <- <- <-; cbn [cmd_data_from String.eqb Ascii.eqb Bool.eqb].
  - binv1. exists CDNone. auto.
  - destruct (coord3_inv _ Hw) as (c & -> & <-). exists (CDPoint c). auto.
  - destruct (target_inv _ Hw) as (c & -> & <-). exists (CDUnit c). auto.
  - binv1. run. ids. exists (CDData z). auto.
Qed.
Lemma mask_inv : inverts bp_GameSSelectionMask sel_mask_from mask_value.
Proof.
  intros v H. destruct (bt_choice _ _ _ H) as (z & s & t & w & -> & Hin & Hw). clear H.
  cbn [In] in Hin. destruct Hin as [E|[E|[E|[E|[]]]]]; injection E as <- <- <-; cbn [sel_mask_from String.eqb Ascii.eqb Bool.eqb].
  - binv1. exists SMNone. auto.
  - binv1. exists (SMMask l). auto.
  - destruct (array_inv _ 9 _ (cast as_u16) VInt (cast_inv as_u16 0 9 eq_refl ltac:(intros; apply as_u16_id; cbn in *; lia)) _ Hw) as (l & -> & <-). exists (SMOne l). auto.
  - destruct (array_inv _ 9 _ (cast as_u16) VInt (cast_inv as_u16 0 9 eq_refl ltac:(intros; apply as_u16_id; cbn in *; lia)) _ Hw) as (l & -> & <-). exists (SMZero l). auto.
Qed.
Lemma subgroup_inv : inverts bp_GameSSelectionDeltaSubgroup subgroup_from subgroup_value.
Proof. intros v H. binv. unfold subgroup_from. run. ids. eexists; split; reflexivity. Qed.
Lemma tags_inv : inverts (BArray 9 bp_GameTUnitTag) (to_list (cast as_u32)) v_ints.
Proof. apply (array_inv _ 9 _ (cast as_u32) VInt (cast_inv as_u32 0 32 eq_refl ltac:(intros; apply as_u32_id; unfold two32; cbn in *; lia))). Qed.
Lemma opt_u32_inv : inverts (BOpt bp_Uint32) (to_opt (cast as_u32)) (v_opt VInt).
Proof. apply opt_inv. apply cast_inv; [reflexivity|]. intros; apply as_u32_id; unfold two32; cbn in *; lia. Qed.

(** Each supported event. *)
Ltac done := eexists; (split; [reflexivity|]); reflexivity.
Definition einverts (s : string) (t : bty) (f : val -> outcome game_event) : Prop :=
  forall v, btyped t v = true -> exists e, f v = Ok e /\ game_value e = VChoice s v.

Lemma cmd_inv : forall k, Nat.ltb k 64 = true -> einverts "ECmd" (BStruct [
    ("m_cmd_flags", (BInt 0 k));
    ("m_abil", (BOpt bp_GameSCmdAbil));
    ("m_data", bp_GameSCmdData);
    ("m_sequence", (BInt 1 32));
    ("m_other_unit", (BOpt bp_GameTUnitTag));
    ("m_unit_group", (BOpt bp_Uint32))]) cmd_from.
Proof.
  intros k Hk v H. open_struct. unfold cmd_from. run.
  destruct (opt_inv _ _ _ _ abil_inv _ Hw0) as (a & -> & <-). clear Hw0. cbn [obind].
  destruct (int_inv _ _ Hk _ Hw) as (f & -> & <-). clear Hw. cbn [obind].
  destruct (cmd_data_inv _ Hw1) as (d & -> & <-). clear Hw1. cbn [obind].
  destruct (int_inv 1 32 eq_refl _ Hw2) as (s & -> & <-). clear Hw2. cbn [obind].
  destruct (opt_u32_inv _ Hw3) as (o & -> & <-). clear Hw3. cbn [obind].
  destruct (opt_u32_inv _ Hw4) as (g & -> & <-). clear Hw4. cbn [obind]. done.
Qed.
Lemma drop_user_inv : einverts "EDropUser" bp_GameSDropUserEvent drop_user_from.
Proof.
  intros v H. open_struct. binv. unfold drop_user_from. run. ids.
  cbn [map snd In] in Hs. repeat (destruct Hs as [<-|Hs]; [done|]). destruct Hs.
Qed.
Lemma camera_save_inv : einverts "ECameraSave" bp_GameSCameraSaveEvent camera_save_from.
Proof. intros v H. open_struct. unfold camera_save_from. run. destruct (point_inv _ Hw0) as (p & -> & <-). clear Hw0. binv. run. done. Qed.
Lemma camera_update_inv : einverts "ECameraUpdate" bp_GameSCameraUpdateEvent camera_update_from.
Proof.
  intros v H. open_struct. unfold camera_update_from. run. destruct (opt_inv _ _ _ _ point_inv _ Hw) as (p & -> & <-). clear Hw.
  destruct (opt_inv _ _ _ _ (int_inv 0 16 eq_refl) _ Hw0) as (d & -> & <-). clear Hw0.
  destruct (opt_inv _ _ _ _ (int_inv 0 16 eq_refl) _ Hw1) as (pi & -> & <-). clear Hw1.
  destruct (opt_inv _ _ _ _ (int_inv 0 16 eq_refl) _ Hw2) as (y & -> & <-). clear Hw2.
  assert (Hc : inverts (BInt (-128) 8) (cast as_i8) VInt) by (apply cast_inv; [reflexivity|]; intros; apply as_i8_id; cbn in *; lia).
  destruct (opt_inv _ _ _ _ Hc _ Hw3) as (rr & -> & <-). clear Hw3. binv. run. done.
Qed.
Lemma selection_inv : einverts "ESelectionDelta" bp_GameSSelectionDeltaEvent selection_delta_from.
Proof.
  intros v H. open_struct. destruct (bt_struct _ _ Hw0) as (vs & -> & Hv). clear Hw0. repeat fields1. unfold selection_delta_from. run.
  destruct (array_inv _ 9 _ _ _ subgroup_inv _ Hw2) as (sg & -> & <-). clear Hw2. cbn [obind].
  destruct (tags_inv _ Hw3) as (tg & -> & <-). clear Hw3. cbn [obind].
  destruct (mask_inv _ Hw1) as (k & -> & <-). clear Hw1. binv. run. ids. done.
Qed.
Lemma control_inv : einverts "EControlGroupUpdate" bp_GameSControlGroupUpdateEvent control_group_from.
Proof.
  intros v H. open_struct. unfold control_group_from. run. destruct (mask_inv _ Hw1) as (k & E & <-). clear Hw1. binv. run. ids. 
  cbn [map snd In] in Hs. repeat (destruct Hs as [<-|Hs]; [cbn [group_update_from String.eqb Ascii.eqb Bool.eqb obind]; rewrite E; done|]). destruct Hs.
Qed.
Lemma sync_inv : einverts "ESelectionSyncCheck" bp_GameSSelectionSyncCheckEvent sync_check_from.
Proof. intros v H. binv. unfold sync_check_from. run. ids. done. Qed.
Lemma click_inv : einverts "EUnitClick" bp_GameSUnitClickEvent unit_click_from.
Proof. intros v H. binv. unfold unit_click_from. run. ids. done. Qed.
Lemma highlight_inv : einverts "EUnitHighlight" bp_GameSUnitHighlightEvent unit_highlight_from.
Proof. intros v H. binv. unfold unit_highlight_from. run. ids. done. Qed.
Lemma reply_inv : einverts "ETriggerReplySelected" bp_GameSTriggerReplySelectedEvent reply_from.
Proof. intros v H. binv. unfold reply_from. run. ids. done. Qed.
Lemma mouse_click_inv : einverts "ETriggerMouseClicked" bp_GameSTriggerMouseClickedEvent mouse_click_from.
Proof.
  intros v H. open_struct. unfold mouse_click_from. run. destruct (ui_inv _ Hw1) as (u & E1 & <-). clear Hw1. destruct (coord3_inv _ Hw2) as (c & E2 & <-). clear Hw2.
  binv. run. rewrite E1, E2. run. ids. done.
Qed.
Lemma mouse_move_inv : einverts "ETriggerMouseMoved" bp_GameSTriggerMouseMovedEvent mouse_move_from.
Proof.
  intros v H. open_struct. unfold mouse_move_from. run. destruct (ui_inv _ Hw) as (u & E1 & <-). clear Hw. destruct (coord3_inv _ Hw0) as (c & E2 & <-). clear Hw0.
  binv. run. rewrite E1, E2. run. ids. done.
Qed.
Lemma hotkey_inv : einverts "ETriggerHotkeyPressed" bp_GameSTriggerHotkeyPressedEvent hotkey_from.
Proof. intros v H. binv. unfold hotkey_from. run. ids. done. Qed.
Lemma target_mode_inv : einverts "ETriggerTargetModeUpdate" bp_GameSTriggerTargetModeUpdateEvent target_mode_from.
Proof. intros v H. binv. unfold target_mode_from. run. ids. done. Qed.
Lemma key_inv : einverts "ETriggerKeyPressed" bp_GameSTriggerKeyPressedEvent key_from.
Proof. intros v H. binv. unfold key_from. run. ids. done. Qed.
Lemma wheel_inv : einverts "ETriggerMouseWheel" bp_GameSTriggerMouseWheelEvent mouse_wheel_from.
Proof. intros v H. binv. unfold mouse_wheel_from. run. ids. done. Qed.
Lemma button_inv : einverts "ETriggerButtonPressed" bp_GameSTriggerButtonPressedEvent button_from.
Proof. intros v H. binv. unfold button_from. run. ids. done. Qed.
Lemma manager_inv : einverts "ECommandManagerState" bp_GameSCommandManagerStateEvent manager_state_from.
Proof. intros v H. binv; unfold manager_state_from; run; done. Qed.
Lemma target_point_inv : einverts "ECmdUpdateTargetPoint" bp_GameSCmdUpdateTargetPointEvent target_point_from.
Proof. intros v H. open_struct. unfold target_point_from. run. destruct (coord3_inv _ Hw) as (c & -> & <-). clear Hw. done. Qed.
Lemma target_unit_event_inv : einverts "ECmdUpdateTargetUnit" bp_GameSCmdUpdateTargetUnitEvent target_unit_event_from.
Proof. intros v H. open_struct. unfold target_unit_event_from. run. destruct (target_inv _ Hw) as (c & -> & <-). clear Hw. done. Qed.
Lemma chat_inv : forall v, btyped bp_GameSTriggerChatMessageEvent v = true ->
  exists l, v = VStruct [("m_chat_message", VBytes l)] /\ forallb in_u8 l = true /\
  chat_from v = Ok (GTriggerChatMessage (match from_utf8 l with Ok s => s | _ => ("InvalidUTF8(" ++ show_bytes l ++ ")")%string end)).
Proof. intros v H. binv. exists l. auto. Qed.

(** Bytes are printed as Rust prints them. *)
Lemma show_u8_decimal : forall z, in_u8 z = true -> show_u8 z = decimal z.
Proof.
  intros z Hz.
  assert (A : forallb (fun n => String.eqb (show_u8 (Z.of_nat n)) (decimal (Z.of_nat n))) (seq 0 256) = true) by (vm_compute; reflexivity).
  unfold in_u8 in Hz. apply andb_true_iff in Hz as [H0 H1]. apply Z.leb_le in H0. apply Z.ltb_lt in H1.
  rewrite forallb_forall in A. specialize (A (Z.to_nat z)). rewrite Z2Nat.id in A by exact H0. apply String.eqb_eq, A. apply in_seq. lia.
Qed.
Lemma show_items_concat : forall l, forallb in_u8 l = true -> show_items l = String.concat ", " (map decimal l).
Proof.
  induction l as [|b l IH]; intros Hl; [reflexivity|]. cbn [forallb] in Hl. apply andb_true_iff in Hl as [Hb Hl]. specialize (IH Hl).
  destruct l as [|b' l].
  - cbn [show_items map String.concat]. apply show_u8_decimal, Hb.
  - change (show_items (b :: b' :: l)) with (show_u8 b ++ ", " ++ show_items (b' :: l))%string. rewrite IH, (show_u8_decimal b Hb). reflexivity.
Qed.
Lemma show_bytes_debug : forall l, forallb in_u8 l = true -> show_bytes l = debug_list l.
Proof. intros l Hl. unfold show_bytes, debug_list. rewrite (show_items_concat l Hl). reflexivity. Qed.

Definition game_result (v : val) : Prop :=
  if existsb (String.eqb (variant v)) supported_game_events then
    exists e, game_from v = Ok e /\
      (game_value e = v \/
       exists l, variant v = "ETriggerChatMessage" /\ v = VChoice "ETriggerChatMessage" (VStruct [("m_chat_message", VBytes l)]) /\
         from_utf8 l = Err EUtf8 /\ e = GTriggerChatMessage ("InvalidUTF8(" ++ debug_list l ++ ")")%string)
  else game_from v = Err EUnsupported.

Definition conv_ok (t : bty) (s : string) : Prop := forall w, btyped t w = true -> game_result (VChoice s w).
Lemma conv_by : forall s t f, einverts s t f -> (existsb (String.eqb s) supported_game_events = true) ->
  (forall w, game_from (VChoice s w) = f w) -> conv_ok t s.
Proof.
  intros s t f Hi Hs Hf w Hw. unfold game_result. cbn [variant]. rewrite Hs. destruct (Hi w Hw) as (e & E & Ev). exists e. rewrite Hf. auto.
Qed.
Lemma conv_skip : forall s t, existsb (String.eqb s) supported_game_events = false -> (forall w, game_from (VChoice s w) = Err EUnsupported) -> conv_ok t s.
Proof. intros s t Hs Hf w Hw. unfold game_result. cbn [variant]. rewrite Hs. apply Hf. Qed.
Lemma conv_chat : conv_ok bp_GameSTriggerChatMessageEvent "ETriggerChatMessage".
Proof.
  intros w Hw. unfold game_result. cbn [variant]. change (existsb _ _) with true. cbv iota.
  destruct (chat_inv w Hw) as (l & -> & Hl & E). eexists. split; [exact E|].
  destruct (from_utf8_cases l) as [(s & Es)|Es]; rewrite Es.
  - left. cbn [game_value]. unfold v_str. rewrite (from_utf8_bytes l s Hl Es). reflexivity.
  - right. exists l. rewrite (show_bytes_debug l Hl). auto.
Qed.

Ltac conv1 :=
  first
  [ apply conv_skip; [reflexivity|reflexivity]
  | exact conv_chat
  | (eapply conv_by; [| reflexivity | reflexivity];
     first [exact drop_user_inv | exact camera_save_inv | exact camera_update_inv | exact (cmd_inv 26 eq_refl) | exact (cmd_inv 27 eq_refl) | exact selection_inv | exact control_inv | exact sync_inv
       | exact click_inv | exact highlight_inv | exact reply_inv | exact mouse_click_inv | exact mouse_move_inv | exact hotkey_inv
       | exact target_mode_inv | exact key_inv | exact wheel_inv | exact button_inv | exact manager_inv | exact target_point_inv | exact target_unit_event_inv]) ].

Definition choice_variants (t : bty) : list (Z * string * bty) := match t with BChoice _ l => l | _ => [] end.
Lemma game_convs : forall p, Forall (fun x => conv_ok (snd x) (snd (fst x))) (choice_variants (game_type p)).
Proof.
  intros [|]; cbn [game_type choice_variants bp75_GameEEventId bp_GameEEventId];
  repeat (apply Forall_cons; [cbn [fst snd]; conv1|]); apply Forall_nil.
Qed.
Lemma game_from_typed : forall p v, btyped (game_type p) v = true -> game_result v.
Proof.
  intros p v H. assert (E : exists n, game_type p = BChoice n (choice_variants (game_type p))) by (destruct p; eexists; reflexivity).
  destruct E as [n E]. rewrite E in H. apply bt_choice in H as (z & s & t & w & -> & Hin & Hw).
  pose proof (game_convs p) as Hc. rewrite Forall_forall in Hc. exact (Hc _ Hin w Hw).
Qed.

Lemma game_type_wf : forall p, wf_bty (game_type p) = true /\ no_overflow (game_type p) = true.
Proof. intros [|]; split; vm_compute; reflexivity. Qed.
Lemma game_from_parsed : forall m p c c' v, cursor_ok c -> bparse m (game_type p) c = Ok (c', v) -> game_result v.
Proof. intros m p c c' v Hc E. apply (game_from_typed p). destruct (game_type_wf p). eapply bparse_typed; eassumption. Qed.
