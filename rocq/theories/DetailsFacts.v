(** * Details and init data are converted field by field *)
From Coq Require Import Ascii.
From Verif Require Import Base Types Utf8 Utf8Facts TagFacts Events Convert ConvertSpec Typed BitSpec BitPacked BitProofs BitInterp BitFormat BitTotal BitFacts BitTypes Versioned ByteTypes ByteFacts ConvertFacts ConvertTracker Lobby Times DetailsData DetailsSpec.
From Verif Require Import Convert.
#[local] Open Scope string_scope.
#[local] Open Scope Z_scope.
#[local] Open Scope list_scope.

(** ** Hexadecimal *)
Lemma append_nil : forall s, append s EmptyString = s.
Proof. induction s as [|a s IH]; [reflexivity|]. cbn [append]. now rewrite IH. Qed.
Lemma append_assoc : forall a b c, append (append a b) c = append a (append b c).
Proof. induction a as [|x a IH]; intros b c; [reflexivity|]. cbn [append]. now rewrite IH. Qed.
Fixpoint hex' (l : list Z) : string := match l with [] => EmptyString | b :: l' => append (hex2 b) (hex' l') end.
Lemma hex_fold : forall l acc, fold_left (fun acc b => append acc (hex2 b)) l acc = append acc (hex' l).
Proof. induction l as [|b l IH]; intros acc; [now rewrite append_nil|]. cbn [fold_left hex']. rewrite IH. apply append_assoc. Qed.
Lemma hex_eq : forall l, hex l = hex' l.
Proof. intros l. unfold hex. now rewrite hex_fold. Qed.
Lemma digit_value_hex : forall d, 0 <= d < 16 -> digit_value (hex_digit d) = Some d.
Proof.
  intros d Hd. assert (Hf : Forall (fun d => digit_value (hex_digit d) = Some d) (map Z.of_nat (seq 0 16))) by (vm_compute; repeat constructor).
  rewrite Forall_forall in Hf. apply Hf. apply in_map_iff. exists (Z.to_nat d). split; [lia|]. apply in_seq. lia.
Qed.
Lemma read_hex_hex : forall l, bytes_ok l -> read_hex (hex l) = Some l.
Proof.
  intros l Hl. rewrite hex_eq. induction l as [|b l IH]; [reflexivity|]. apply bytes_ok_cons in Hl as [Hb Hl]. unfold byte_ok in Hb.
  cbn [hex' hex2 append read_hex]. rewrite !digit_value_hex by dlia. rewrite (IH Hl). f_equal. f_equal. dlia.
Qed.

(** ** Fields *)
Section conv.
  Variable sk : list string.
  Definition conv_at {A} (f : val -> outcome A) (R : val -> A -> Prop) (v : val) : Prop :=
    match f v with
    | Ok a => R v a /\ Forall is_utf8 (shown_texts sk v)
    | Err e => e = EUtf8 /\ ~ Forall is_utf8 (shown_texts sk v)
    | Panic => False
    end.
  (** A field that is skipped shows whatever it is. *)
  Definition conv_skip {A} (f : val -> outcome A) (R : val -> A -> Prop) (v : val) : Prop := exists a, f v = Ok a /\ R v a.

  Lemma text_at : forall l, forallb in_u8 l = true -> conv_at to_name is_text (VBytes l).
  Proof.
    intros l Hl. unfold conv_at. cbn [to_name to_bytes obind shown_texts]. destruct (from_utf8_exact l ltac:(now apply byte_list_ok)) as (E1 & E2 & E3).
    change (to_name (VBytes l)) with (from_utf8 l). destruct (from_utf8 l) as [s|e|] eqn:E; [| |contradiction].
    - destruct (proj1 (E1 s) eq_refl) as [-> Ht]. split; [|constructor; [exact Ht|constructor]]. unfold is_text. now rewrite (bytes_of_str_of_bytes l ltac:(now apply byte_list_ok)).
    - destruct (from_utf8_cases l) as [(s & Es)|Es]; [congruence|]. assert (e = EUtf8) by congruence. subst e. split; [reflexivity|]. intros Hf. inversion Hf as [|? ? Hu _]; subst. exact (proj1 E2 eq_refl Hu).
  Qed.
  (** A field that cannot fail. *)
  Definition conv_ok {A} (f : val -> outcome A) (R : val -> A -> Prop) (v : val) : Prop := exists a, f v = Ok a /\ R v a /\ Forall is_utf8 (shown_texts sk v).
  Lemma plain_at : forall A (f : val -> outcome A) (R : val -> A -> Prop) v a, f v = Ok a -> R v a -> shown_texts sk v = [] -> conv_ok f R v.
  Proof. intros A f R v a E Hr Et. exists a. rewrite Et. auto. Qed.
  Lemma ok_opt : forall A (f : val -> outcome A) R w, conv_ok f R w -> conv_ok (to_opt f) (is_opt R) (VOpt (Some w)).
  Proof. intros A f R w (a & E & Hr & Ht). exists (Some a). cbn [to_opt shown_texts]. rewrite E. cbn [obind]. split; [reflexivity|]. split; [exists w; auto|exact Ht]. Qed.
  Lemma ok_none : forall A (f : val -> outcome A) R, conv_ok (to_opt f) (is_opt R) (VOpt None).
  Proof. intros A f R. exists None. split; [reflexivity|]. split; [reflexivity|constructor]. Qed.
  Lemma ok_list : forall A (f : val -> outcome A) R l, Forall (conv_ok f R) l -> conv_ok (to_list f) (is_list R) (VList l).
  Proof.
    intros A f R l Hl. unfold conv_ok. cbn [to_list shown_texts]. assert (Hm : exists l', map_out f l = Ok l' /\ Forall2 R l l' /\ Forall is_utf8 (flat_map (shown_texts sk) l)).
    { induction Hl as [|w l (a & Ea & Hr & Ht) _ (l' & E & Hl' & Ht')]; [exists []; cbn; auto|]. exists (a :: l'). cbn [map_out flat_map]. rewrite Ea. cbn [obind]. rewrite E. cbn [obind].
      split; [reflexivity|]. split; [now constructor|]. apply Forall_app. auto. }
    destruct Hm as (l' & E & Hl' & Ht). exists l'. split; [exact E|]. split; [exists l; auto|exact Ht].
  Qed.
  Lemma ok_get : forall A n (f : val -> outcome A) R fs w, lookup n fs = Ok w -> In (n, w) fs -> conv_ok f R w ->
    shown_texts sk (VStruct fs) = shown_texts sk w -> conv_ok (get f n) (shows n R) (VStruct fs).
  Proof. intros A n f R fs w El Hi (a & E & Hr & Ht) Et. exists a. unfold get. cbn [field]. rewrite El. cbn [obind]. rewrite Et. split; [exact E|]. split; [exists fs, w; auto|exact Ht]. Qed.
  Lemma opt_at : forall A (f : val -> outcome A) R w, conv_at f R w -> conv_at (to_opt f) (is_opt R) (VOpt (Some w)).
  Proof.
    unfold conv_at. intros A f R w K. cbn [to_opt shown_texts]. destruct (f w) as [a|e|]; cbn [obind]; [|exact K|exact K].
    destruct K as [K1 K2]. split; [|exact K2]. exists w. auto.
  Qed.
  Lemma none_at : forall A (f : val -> outcome A) R, conv_at (to_opt f) (is_opt R) (VOpt None).
  Proof. intros A f R. unfold conv_at. cbn. auto. Qed.
  Lemma list_at : forall A (f : val -> outcome A) R l, Forall (conv_at f R) l -> conv_at (to_list f) (is_list R) (VList l).
  Proof.
    intros A f R l Hl. unfold conv_at. cbn [to_list shown_texts].
    assert (Hm : match map_out f l with
      | Ok l' => Forall2 R l l' /\ Forall is_utf8 (flat_map (shown_texts sk) l)
      | Err e => e = EUtf8 /\ ~ Forall is_utf8 (flat_map (shown_texts sk) l)
      | Panic => False end).
    { induction Hl as [|w l Hw _ IH]; [cbn; auto|]. cbn [map_out flat_map]. unfold conv_at in Hw. destruct (f w) as [a|e|]; cbn [obind]; [| |contradiction].
      - destruct Hw as [Hr Ht]. destruct (map_out f l) as [l'|e|]; cbn [obind]; [| |contradiction].
        + destruct IH as [I1 I2]. split; [now constructor|]. apply Forall_app. auto.
        + destruct IH as [I1 I2]. split; [exact I1|]. intros F. apply Forall_app in F. tauto.
      - destruct Hw as [He Ht]. split; [exact He|]. intros F. apply Forall_app in F. tauto. }
    destruct (map_out f l) as [l'|e|]; [|exact Hm|exact Hm]. destruct Hm as [M1 M2]. split; [|exact M2]. exists l. auto.
  Qed.
  Lemma opt_list_at : forall A (f : val -> outcome A) R w, conv_at (to_list f) (is_list R) w -> conv_at (opt_list f) (is_opt_list R) (VOpt (Some w)).
  Proof.
    unfold conv_at, opt_list. intros A f R w K. cbn [to_opt shown_texts obind]. destruct (to_list f w) as [a|e|]; cbn [obind]; [|exact K|exact K].
    destruct K as [K1 K2]. split; [|exact K2]. right. exists w. auto.
  Qed.
  Lemma opt_list_none_at : forall A (f : val -> outcome A) R, conv_at (opt_list f) (is_opt_list R) (VOpt None).
  Proof. intros A f R. unfold conv_at. cbn. split; [|constructor]. left. auto. Qed.
  Lemma get_at : forall A n (f : val -> outcome A) R fs w, lookup n fs = Ok w -> In (n, w) fs -> conv_at f R w ->
    shown_texts sk (VStruct fs) = shown_texts sk w -> conv_at (get f n) (shows n R) (VStruct fs).
  Proof.
    unfold conv_at, get. intros A n f R fs w El Hi K Et. cbn [field]. rewrite El. cbn [obind]. rewrite Et. destruct (f w) as [a|e|]; [|exact K|exact K].
    destruct K as [K1 K2]. split; [|exact K2]. exists fs, w. auto.
  Qed.
End conv.

(** ** Skipped fields *)
Lemma skip_list : forall A (f : val -> outcome A) R l, Forall (conv_skip f R) l -> conv_skip (to_list f) (is_list R) (VList l).
Proof.
  intros A f R l Hl. unfold conv_skip. cbn [to_list]. assert (Hm : exists l', map_out f l = Ok l' /\ Forall2 R l l').
  { induction Hl as [|w l (a & Ea & Hr) _ (l' & E & Hl')]; [exists []; auto|]. exists (a :: l'). cbn [map_out]. rewrite Ea. cbn [obind]. rewrite E. cbn [obind]. auto. }
  destruct Hm as (l' & E & Hl'). exists l'. split; [exact E|]. exists l. auto.
Qed.
Lemma skip_opt_list : forall A (f : val -> outcome A) R w, conv_skip (to_list f) (is_list R) w -> conv_skip (opt_list f) (is_opt_list R) (VOpt (Some w)).
Proof. intros A f R w (a & E & Hr). exists a. unfold opt_list. cbn [to_opt]. rewrite E. cbn [obind]. split; [reflexivity|]. right. exists w. auto. Qed.
Lemma skip_opt_list_none : forall A (f : val -> outcome A) R, conv_skip (opt_list f) (is_opt_list R) (VOpt None).
Proof. intros A f R. exists []. split; [reflexivity|]. left. auto. Qed.
Lemma skip_hex : forall l, forallb in_u8 l = true -> conv_skip to_hex is_hex (VBytes l).
Proof. intros l Hl. exists (hex l). split; [reflexivity|]. exists l. split; [reflexivity|]. apply read_hex_hex. now apply byte_list_ok. Qed.

Lemma vt_enum : forall l v, vtyped (TEnum l) v = true -> exists s, v = VEnum s /\ In s (map snd l).
Proof.
  intros l v E; destruct v; try discriminate. cbn [vtyped] in E. apply existsb_exists in E as (x & Hx & E).
  apply String.eqb_eq in E. subst. exists (snd x). split; [reflexivity|]. now apply in_map.
Qed.
Lemma vt_bool : forall v, vtyped TBool v = true -> exists b, v = VBool b.
Proof. intros [] E; try discriminate; eauto. Qed.
Lemma vt_fourcc : forall v, vtyped TFourcc v = true -> exists z, v = VInt z.
Proof. intros [] E; try discriminate; eauto. Qed.

Lemma Forall_imp : forall A (P Q : A -> Prop) l, (forall a, P a -> Q a) -> Forall P l -> Forall Q l.
Proof. intros A P Q l Hi Hl. exact (Forall_impl _ Hi Hl). Qed.
Ltac enum_cases Hs := cbn [map snd In] in Hs; repeat (destruct Hs as [<-|Hs]; [|]); [..|destruct Hs].

Ltac v_leaf := idtac;
  match goal with
  | Hw : vtyped TBlob ?w = true |- conv_at _ to_name _ ?w => let l := fresh "l" in let Hl := fresh "Hl" in destruct (vt_blob w Hw) as (l & -> & Hl); exact (text_at _ l Hl)
  | Hw : vtyped (TInt ?n) ?w = true |- conv_ok _ to_int _ ?w => let z := fresh "z" in destruct (vt_int n w Hw) as (z & -> & _); exact (plain_at _ _ to_int is_int (VInt z) z eq_refl eq_refl eq_refl)
  | Hw : vtyped TFourcc ?w = true |- conv_ok _ to_int _ ?w => let z := fresh "z" in destruct (vt_fourcc w Hw) as (z & ->); exact (plain_at _ _ to_int is_int (VInt z) z eq_refl eq_refl eq_refl)
  | Hw : vtyped TBool ?w = true |- conv_ok _ to_bool _ ?w => let b := fresh "b" in destruct (vt_bool w Hw) as (b & ->); exact (plain_at _ _ to_bool is_bool (VBool b) b eq_refl eq_refl eq_refl)
  end.
Lemma v_observe : forall sk v, vtyped ba_EObserve v = true -> conv_ok sk observe_from is_observe v.
Proof.
  intros sk v E. destruct (vt_enum _ _ E) as (s & -> & Hs). cbn [map snd In] in Hs.
  destruct Hs as [<-|[<-|[<-|[]]]]; eapply plain_at; try reflexivity; [exists 0%nat|exists 1%nat|exists 2%nat]; auto.
Qed.
Lemma v_result : forall sk v, vtyped ba_GameEResultDetails v = true -> conv_ok sk (enum_from result_table) is_short_name v.
Proof.
  intros sk v E. destruct (vt_enum _ _ E) as (s & -> & Hs). cbn [map snd In] in Hs.
  repeat (destruct Hs as [<-|Hs]; [eapply plain_at; reflexivity|]). destruct Hs.
Qed.
Lemma v_speed : forall sk v, vtyped ba_GameEGameSpeed v = true -> conv_ok sk (enum_from speed_table) is_short_name v.
Proof.
  intros sk v E. destruct (vt_enum _ _ E) as (s & -> & Hs). cbn [map snd In] in Hs.
  repeat (destruct Hs as [<-|Hs]; [eapply plain_at; reflexivity|]). destruct Hs.
Qed.

(** ** Structs *)
Lemma lookup_In : forall n fs w, lookup n fs = Ok w -> In (n, w) fs.
Proof.
  induction fs as [|[k x] fs IH]; intros w E; [discriminate|]. cbn [lookup] in E. destruct (String.eqb k n) eqn:Ek.
  - apply String.eqb_eq in Ek as ->. injection E as ->. now left.
  - right. now apply IH.
Qed.
Lemma shows_lookup : forall A n (R : val -> A -> Prop) fs w a, lookup n fs = Ok w -> R w a -> shows n R (VStruct fs) a.
Proof. intros A n R fs w a E Hr. exists fs, w. split; [reflexivity|]. split; [now apply lookup_In|exact Hr]. Qed.
Ltac txt := cbn [shown_texts flat_map fst snd existsb String.eqb Ascii.eqb Bool.eqb orb app details_skip init_skip].
Ltac here := first [left; reflexivity | right; here].
(** Consume the next field: [K] says how it converts. *)
Ltac take K :=
  let C := fresh "C" in
  pose proof K as C; unfold conv_at in C;
  match type of C with
  | match ?x with _ => _ end =>
      let a := fresh "a" in let e := fresh "e" in
      destruct x as [a|e|]; cbn [obind]; [ let C1 := fresh "Cr" in let C2 := fresh "Ct" in destruct C as [C1 C2] | let C2 := fresh "Cn" in destruct C as [-> C2] | contradiction ]
  | exists a, ?x = Ok a /\ _ => let a := fresh "a" in let E := fresh "E" in let C1 := fresh "Cr" in destruct C as (a & E & C1); rewrite E; cbn [obind]
  end.

Ltac next tac :=
  match goal with
  | |- context [obind (?f ?w) _] =>
      let sk := match goal with |- context [shown_texts ?sk _] => sk end in
      first [ let K := fresh "K" in eassert (K : conv_ok sk f _ w) by tac; unfold conv_ok in K;
                let a := fresh "a" in let E := fresh "E" in let C1 := fresh "Cr" in let C2 := fresh "Ct" in destruct K as (a & E & C1 & C2); rewrite E; cbn [obind]
            | let K := fresh "K" in eassert (K : conv_at sk f _ w) by tac; take K; clear K
            | let K := fresh "K" in eassert (K : conv_skip f _ w) by tac; unfold conv_skip in K; take K; clear K ]
  end.
Ltac no_text := intros F; cbn [shown_texts flat_map fst snd existsb String.eqb Ascii.eqb Bool.eqb orb app details_skip init_skip] in F;
  repeat match goal with Q : Forall _ (_ ++ _) |- _ => apply Forall_app in Q as [? Q] end; contradiction.
Ltac all_text := txt; repeat (apply Forall_app; split); first [assumption | constructor].
Ltac all_shown := hnf; repeat match goal with |- _ /\ _ => split end; (eapply shows_lookup; [reflexivity|eassumption]).
Ltac finish := first [ split; [reflexivity|no_text] | split; [all_shown|all_text] ].
Ltac open_v := match goal with Hv : vtyped _ _ = true |- _ => let vs := fresh "vs" in let Hs := fresh "Hs" in destruct (vt_struct _ _ Hv) as (vs & -> & Hs); clear Hv; repeat vf1 end.
Ltac start f := unfold conv_at, f; cbn [get field lookup obind String.eqb Ascii.eqb Bool.eqb].


Lemma toon_conv : forall v, vtyped ba_GameSToonNameDetails v = true -> conv_skip toon_from toon_shown v.
Proof.
  intros v Hv. open_v. destruct (vt_int _ _ Hw) as (z & -> & _). destruct (vt_fourcc _ Hw0) as (z0 & ->). destruct (vt_int _ _ Hw1) as (z1 & -> & _). destruct (vt_int _ _ Hw3) as (z3 & -> & _).
  eexists. split; [reflexivity|]. unfold toon_shown. repeat match goal with |- _ /\ _ => split end; (do 2 eexists; split; [reflexivity|]; split; [here|reflexivity]).
Qed.
Lemma color_conv : forall v, vtyped ba_GameSColor v = true -> conv_ok details_skip color_from color_shown v.
Proof.
  intros v Hv. open_v. unfold conv_ok, color_from. cbn [get field lookup obind String.eqb Ascii.eqb Bool.eqb]. repeat next v_leaf.
  eexists. split; [reflexivity|]. finish. Qed.
Lemma v_opt_int : forall sk t v, vtyped (TOpt (TInt t)) v = true -> conv_ok sk (to_opt to_int) (is_opt is_int) v.
Proof. intros sk t v Hv. destruct (vt_opt _ _ Hv) as [->|(w & -> & Hw)]; [apply ok_none|]. apply ok_opt. v_leaf. Qed.
Lemma v_opt_bool : forall sk v, vtyped (TOpt TBool) v = true -> conv_ok sk (to_opt to_bool) (is_opt is_bool) v.
Proof. intros sk v Hv. destruct (vt_opt _ _ Hv) as [->|(w & -> & Hw)]; [apply ok_none|]. apply ok_opt. v_leaf. Qed.
Ltac v_field := first [v_leaf | eapply color_conv; eassumption | eapply toon_conv; eassumption | eapply v_observe; eassumption | eapply v_result; eassumption | eapply v_speed; eassumption
  | eapply v_opt_int; eassumption | eapply v_opt_bool; eassumption].
Lemma player_conv : forall v, vtyped ba_GameSPlayerDetails v = true -> conv_at details_skip player_from player_shown v.
Proof. intros v Hv. open_v. start player_from. repeat next v_field. all: finish. Qed.
Lemma v_opt_list : forall A sk t (f : val -> outcome A) R, (forall v, vtyped t v = true -> conv_at sk f R v) ->
  forall v, vtyped (TOpt (TArray t)) v = true -> conv_at sk (opt_list f) (is_opt_list R) v.
Proof.
  intros A sk t f R Hf v Hv. destruct (vt_opt _ _ Hv) as [->|(w & -> & Hw)]; [apply opt_list_none_at|]. apply opt_list_at.
  destruct (vt_array _ _ Hw) as (l & -> & Hl). apply list_at. exact (Forall_imp _ _ _ l Hf Hl).
Qed.
Lemma v_text : forall sk v, vtyped TBlob v = true -> conv_at sk to_name is_text v.
Proof. intros sk v Hv. v_leaf. Qed.
Lemma v_handles : forall v, vtyped (TOpt (TArray TBlob)) v = true -> conv_skip (opt_list to_hex) (is_opt_list is_hex) v.
Proof.
  intros v Hv. destruct (vt_opt _ _ Hv) as [->|(w & -> & Hw)]; [apply skip_opt_list_none|]. apply skip_opt_list.
  destruct (vt_array _ _ Hw) as (l & -> & Hl). apply skip_list. refine (Forall_imp _ _ _ l _ Hl). intros a Ha. destruct (vt_blob _ Ha) as (b & -> & Hb). now apply skip_hex.
Qed.
Lemma thumbnail_conv : forall sk v, existsb (String.eqb "m_file") sk = false -> vtyped ba_GameSThumbnail v = true -> conv_at sk (get to_name "m_file") (shows "m_file" is_text) v.
Proof.
  intros sk v Hk Hv. open_v. eapply get_at; [reflexivity|here|now apply v_text|]. cbn [shown_texts flat_map fst snd]. rewrite Hk. apply app_nil_r.
Qed.
Ltac d_field := first [v_field | eapply v_opt_list; [exact player_conv|eassumption] | eapply v_handles; eassumption | eapply v_opt_list; [exact (v_text _)|eassumption] | eapply thumbnail_conv; [reflexivity|eassumption]].
Lemma details_conv : forall v, vtyped ba_GameSDetails v = true -> conv_at details_skip details_from details_shown v.
Proof. intros v Hv. open_v. start details_from. repeat next d_field. all: finish. Qed.

(** ** Init data *)
Lemma bt_any_int : forall o n v, btyped (BInt o n) v = true -> exists z, v = VInt z.
Proof. intros o n [] E; try discriminate; eauto. Qed.
Lemma bt_bitint : forall n v, btyped (BBitInt n) v = true -> exists z, v = VInt z.
Proof. intros n [] E; try discriminate; eauto. Qed.
Lemma bt_fixed : forall n v, btyped (BFixedBlob n) v = true -> exists l, v = VBytes l /\ forallb in_u8 l = true.
Proof. intros n [] E; try discriminate; eauto. Qed.
Lemma b_cast : forall sk c o n, Nat.ltb n 64 = true -> (forall z, o <= z < o + 2 ^ Z.of_nat n -> c z = z) ->
  forall v, btyped (BInt o n) v = true -> conv_ok sk (cast c) is_int v.
Proof. intros sk c o n Hn Hc v Hv. destruct (bt_int _ _ _ Hv Hn) as (z & -> & Hz). eapply plain_at; [cbn [cast to_int obind]; rewrite (Hc z Hz); reflexivity|reflexivity|reflexivity]. Qed.
Lemma b_u8 : forall sk v, btyped bp_Uint8 v = true -> conv_ok sk (cast as_u8) is_int v.
Proof. intros sk. apply b_cast; [reflexivity|]. intros z Hz. apply as_u8_id. cbn in Hz. lia. Qed.
Lemma b_u32 : forall sk v, btyped bp_Uint32 v = true -> conv_ok sk (cast as_u32) is_int v.
Proof. intros sk. apply b_cast; [reflexivity|]. intros z Hz. apply as_u32_id. unfold two32. cbn in Hz. lia. Qed.
Lemma b_i32 : forall sk v, btyped bp_Int32 v = true -> conv_ok sk (cast as_i32) is_int v.
Proof. intros sk. apply b_cast; [reflexivity|]. intros z Hz. apply as_i32_id. cbn in Hz. lia. Qed.
Lemma b_int : forall sk o n v, btyped (BInt o n) v = true -> conv_ok sk to_int is_int v.
Proof. intros sk o n v Hv. destruct (bt_any_int _ _ _ Hv) as (z & ->). eapply plain_at; reflexivity. Qed.
Lemma b_bitint : forall sk n v, btyped (BBitInt n) v = true -> conv_ok sk to_int is_int v.
Proof. intros sk n v Hv. destruct (bt_bitint _ _ Hv) as (z & ->). eapply plain_at; reflexivity. Qed.
Lemma b_bool : forall sk v, btyped BBool v = true -> conv_ok sk to_bool is_bool v.
Proof. intros sk v Hv. destruct (bt_bool _ Hv) as (b & ->). eapply plain_at; reflexivity. Qed.
Lemma b_text : forall sk n v, btyped (BBlob n) v = true -> conv_at sk to_name is_text v.
Proof. intros sk n v Hv. destruct (bt_blob _ _ Hv) as (l & -> & Hl). exact (text_at sk l Hl). Qed.
Lemma b_opt : forall A sk t (f : val -> outcome A) R, (forall v, btyped t v = true -> conv_at sk f R v) ->
  forall v, btyped (BOpt t) v = true -> conv_at sk (to_opt f) (is_opt R) v.
Proof. intros A sk t f R Hf v Hv. destruct (bt_opt _ _ Hv) as [->|(w & -> & Hw)]; [apply none_at|]. apply opt_at. now apply Hf. Qed.
Lemma b_list : forall A sk n t (f : val -> outcome A) R, (forall v, btyped t v = true -> conv_at sk f R v) ->
  forall v, btyped (BArray n t) v = true -> conv_at sk (to_list f) (is_list R) v.
Proof. intros A sk n t f R Hf v Hv. destruct (bt_array _ _ _ Hv) as (l & -> & Hl). apply list_at. exact (Forall_imp _ _ _ l Hf Hl). Qed.
Lemma bo_opt : forall A sk t (f : val -> outcome A) R, (forall v, btyped t v = true -> conv_ok sk f R v) ->
  forall v, btyped (BOpt t) v = true -> conv_ok sk (to_opt f) (is_opt R) v.
Proof. intros A sk t f R Hf v Hv. destruct (bt_opt _ _ Hv) as [->|(w & -> & Hw)]; [apply ok_none|]. apply ok_opt. now apply Hf. Qed.
Lemma bo_list : forall A sk n t (f : val -> outcome A) R, (forall v, btyped t v = true -> conv_ok sk f R v) ->
  forall v, btyped (BArray n t) v = true -> conv_ok sk (to_list f) (is_list R) v.
Proof. intros A sk n t f R Hf v Hv. destruct (bt_array _ _ _ Hv) as (l & -> & Hl). apply ok_list. exact (Forall_imp _ _ _ l Hf Hl). Qed.
Lemma b_bytes : forall n v, btyped (BBitArray n) v = true -> conv_skip to_bytes is_bytes v.
Proof. intros n v Hv. destruct (bt_bitarray _ _ Hv) as (l & -> & _). exists l. split; reflexivity. Qed.
Lemma b_logo : forall n v, btyped (BOpt (BFixedBlob n)) v = true -> conv_skip (to_opt to_bytes) (is_opt is_bytes) v.
Proof.
  intros n v Hv. destruct (bt_opt _ _ Hv) as [->|(w & -> & Hw)]; [exists None; split; reflexivity|]. destruct (bt_fixed _ _ Hw) as (l & -> & _).
  exists (Some l). split; [reflexivity|]. exists (VBytes l). split; reflexivity.
Qed.
Lemma b_handles : forall v, btyped bp_GameCCacheHandles v = true -> conv_skip (to_list to_hex) (is_list is_hex) v.
Proof.
  intros v Hv. destruct (bt_array _ _ _ Hv) as (l & -> & Hl). apply skip_list. refine (Forall_imp _ _ _ l _ Hl). intros a Ha. destruct (bt_fixed _ _ Ha) as (b & -> & Hb). now apply skip_hex.
Qed.
Ltac code n := first [exists n; split; reflexivity | code (S n)].
Lemma b_observe : forall sk v, btyped bp_EObserve v = true -> conv_ok sk observe_from is_observe v.
Proof.
  intros sk v E. destruct (bt_enum _ _ _ E) as (s & -> & Hs). cbn [map snd In] in Hs.
  repeat (destruct Hs as [<-|Hs]; [eapply plain_at; [reflexivity|code O|reflexivity]|]). destruct Hs.
Qed.
Lemma b_speed : forall sk v, btyped bp_GameEGameSpeed v = true -> conv_ok sk speed_from is_speed v.
Proof.
  intros sk v E. destruct (bt_enum _ _ _ E) as (s & -> & Hs). cbn [map snd In] in Hs.
  repeat (destruct Hs as [<-|Hs]; [eapply plain_at; [reflexivity|code O|reflexivity]|]). destruct Hs.
Qed.
Ltac b_enum := let E := fresh "E" in let s := fresh "s" in let Hs := fresh "Hs" in intros ? ? E; destruct (bt_enum _ _ _ E) as (s & -> & Hs); cbn [map snd In] in Hs;
  repeat (destruct Hs as [<-|Hs]; [eapply plain_at; reflexivity|]); destruct Hs.
Lemma b_fog : forall sk v, btyped bp_GameEOptionFog v = true -> conv_ok sk (enum_from fog_table) is_name v.
Proof. b_enum. Qed.
Lemma b_observers : forall sk v, btyped bp_GameEOptionObservers v = true -> conv_ok sk (enum_from observers_table) is_name v.
Proof. b_enum. Qed.
Lemma b_difficulty : forall sk v, btyped bp_GameEOptionUserDifficulty v = true -> conv_ok sk (enum_from user_difficulty_table) is_name v.
Proof. b_enum. Qed.
Lemma b_game_type : forall sk v, btyped bp_GameEGameType v = true -> conv_ok sk (enum_from game_type_table) is_name v.
Proof. b_enum. Qed.
Lemma b_phase : forall sk v, btyped bp_GameEPhase v = true -> conv_ok sk (enum_from phase_table) is_name v.
Proof. b_enum. Qed.
Ltac open_b := match goal with Hv : btyped _ _ = true |- _ => let vs := fresh "vs" in let Hs := fresh "Hs" in destruct (bt_struct _ _ Hv) as (vs & -> & Hs); clear Hv; repeat fields1 end.
Lemma b_inner : forall A n t (f : val -> outcome A) R, existsb (String.eqb n) init_skip = false -> (forall v, btyped t v = true -> conv_ok init_skip f R v) ->
  forall v, btyped (BStruct [(n, t)]) v = true -> conv_ok init_skip (get f n) (shows n R) v.
Proof.
  intros A n t f R Hn Hf v Hv. open_b. eapply ok_get; [cbn [lookup]; rewrite String.eqb_refl; reflexivity|here|now apply Hf|].
  cbn [shown_texts flat_map fst snd]. rewrite Hn. apply app_nil_r.
Qed.
Ltac b_leaf := idtac; match goal with
  | |- conv_at _ to_name _ _ => eapply b_text; eassumption
  | |- conv_at _ (to_opt to_name) _ _ => eapply b_opt; cycle 1; [eassumption|exact (b_text _ _)]
  | |- conv_at _ (to_list to_name) _ _ => eapply b_list; cycle 1; [eassumption|exact (b_text _ _)]
  | |- conv_ok _ ?f _ ?w => lazymatch f with
  | to_int => first [eapply b_int; eassumption | eapply b_bitint; eassumption]
  | to_bool => eapply b_bool; eassumption
  | cast as_u8 => eapply b_u8; eassumption
  | cast as_u32 => eapply b_u32; eassumption
  | observe_from => eapply b_observe; eassumption
  | speed_from => eapply b_speed; eassumption
  | enum_from fog_table => eapply b_fog; eassumption
  | enum_from observers_table => eapply b_observers; eassumption
  | enum_from user_difficulty_table => eapply b_difficulty; eassumption
  | enum_from game_type_table => eapply b_game_type; eassumption
  | enum_from phase_table => eapply b_phase; eassumption
  | to_opt to_int => eapply bo_opt; cycle 1; [eassumption|exact (b_int _ _ _)]
  | to_opt (cast as_u8) => eapply bo_opt; cycle 1; [eassumption|exact (b_u8 _)]
  | to_opt (cast as_u32) => eapply bo_opt; cycle 1; [eassumption|exact (b_u32 _)]
  | to_opt (cast as_i32) => eapply bo_opt; cycle 1; [eassumption|exact (b_i32 _)]
  | to_list (cast as_u32) => eapply bo_list; cycle 1; [eassumption|exact (b_u32 _)]
  | get (to_opt to_int) _ => eapply b_inner; cycle 2; [eassumption|reflexivity|exact (bo_opt _ _ _ _ _ (b_int _ _ _))]
  | get (to_opt (cast as_u8)) _ => eapply b_inner; cycle 2; [eassumption|reflexivity|exact (bo_opt _ _ _ _ _ (b_u8 _))]
  end
  | |- conv_skip to_bytes _ _ => eapply b_bytes; eassumption
  | |- conv_skip (to_opt to_bytes) _ _ => eapply b_logo; eassumption
  | |- conv_skip (to_list to_hex) _ _ => eapply b_handles; eassumption
  end.
Lemma user_conv : forall v, btyped bp_SUserInitialData v = true -> conv_at init_skip user_data_from user_shown v.
Proof. intros v Hv. open_b. start user_data_from. repeat next b_leaf. all: finish. Qed.
Lemma options_conv : forall v, btyped bp_GameSGameOptions v = true -> conv_at init_skip game_options_from options_shown v.
Proof. intros v Hv. open_b. start game_options_from. repeat next b_leaf. all: finish. Qed.
Lemma slot_description_conv : forall v, btyped bp_GameSSlotDescription v = true -> conv_at init_skip slot_description_from slot_description_shown v.
Proof. intros v Hv. open_b. start slot_description_from. repeat next b_leaf. all: finish. Qed.
Ltac b_field := first [b_leaf | eapply options_conv; eassumption | eapply b_list; [exact slot_description_conv|eassumption]].
Lemma description_conv : forall v, btyped bp_GameSGameDescription v = true -> conv_at init_skip game_description_from description_shown v.
Proof. intros v Hv. open_b. start game_description_from. repeat next b_field. all: finish. Qed.
Lemma override_conv : forall v, btyped bp_GameCRewardOverride v = true -> conv_at init_skip reward_override_from override_shown v.
Proof. intros v Hv. open_b. start reward_override_from. repeat next b_leaf. all: finish. Qed.
Ltac s_field := first [b_leaf | eapply b_list; [exact override_conv|eassumption]].
Lemma slot_conv : forall v, btyped bp_GameSLobbySlot v = true -> conv_at init_skip lobby_slot_from slot_shown v.
Proof. intros v Hv. open_b. start lobby_slot_from. repeat next s_field. all: finish. Qed.
Ltac l_field := first [b_leaf | eapply b_list; [exact slot_conv|eassumption]].
Lemma lobby_conv : forall v, btyped bp_GameSLobbyState v = true -> conv_at init_skip lobby_state_from lobby_shown v.
Proof. intros v Hv. open_b. start lobby_state_from. repeat next l_field. all: finish. Qed.
Ltac y_field := first [eapply b_list; [exact user_conv|eassumption] | eapply description_conv; eassumption | eapply lobby_conv; eassumption].
Lemma sync_conv : forall v, btyped bp_GameSLobbySyncState v = true -> conv_at init_skip sync_state_from sync_shown v.
Proof. intros v Hv. open_b. start sync_state_from. repeat next y_field. all: finish. Qed.
Ltac i_field := eapply sync_conv; eassumption.
Lemma init_conv : forall v, btyped bp_ReplaySInitData v = true -> conv_at init_skip init_from init_shown v.
Proof. intros v Hv. open_b. start init_from. repeat next i_field. all: finish. Qed.

(** ** From the sectors *)
Lemma details_shown_meta : forall v d fs t, details_shown v d ->
  details_shown v (mk_full_details fs t (xd_player_list d) (xd_title d) (xd_difficulty d) (xd_thumbnail d) (xd_is_blizzard_map d) (xd_time_utc d) (xd_time_local_offset d)
    (xd_restart_as_transition_map d) (xd_disable_recover_game d) (xd_description d) (xd_image_file_path d) (xd_campaign_index d) (xd_map_file_name d)
    (xd_cache_handles d) (xd_mini_save d) (xd_game_speed d) (xd_default_difficulty d) (xd_mod_paths d)).
Proof. intros v d fs t Hd. exact Hd. Qed.
Lemma shown_times : forall v d, vtyped ba_GameSDetails v = true -> details_from v = Ok d -> in_i64 (xd_time_utc d) = true /\ in_i64 (xd_time_local_offset d) = true.
Proof.
  intros v d Hv. open_v. intros E. destruct (vt_int _ _ Hw4) as (z & -> & Hz). destruct (vt_int _ _ Hw5) as (z' & -> & Hz').
  unfold details_from in E. cbn [get field lookup obind String.eqb Ascii.eqb Bool.eqb] in E.
  repeat match type of E with obind ?x _ = _ => let a := fresh "x" in apply obind_ok in E as (a & ? & E) end.
  cbn [to_int] in *. injection E as <-. cbn [xd_time_utc xd_time_local_offset].
  repeat match goal with Q : Ok _ = Ok _ |- _ => injection Q as <- end. split; assumption.
Qed.
Lemma details_new_cases : forall m fs l, bytes_ok l ->
  match vparse m ba_GameSDetails l with
  | Ok (_, v) =>
      (exists d, details_new m fs l = Ok d /\ details_shown v d /\ Forall is_utf8 (shown_texts details_skip v) /\ xd_fs_id d = fs /\
         Z.abs (nanos (xd_datetime d) - (xd_time_utc d - epoch_ticks - xd_time_local_offset d) * 100) < 2000) \/
      (details_new m fs l = Err EUtf8 /\ ~ Forall is_utf8 (shown_texts details_skip v))
  | Err e => details_new m fs l = Err e
  | Panic => details_new m fs l = Panic
  end.
Proof.
  intros m fs l Hl. unfold details_new. destruct (vparse m ba_GameSDetails l) as [[r v]|e|] eqn:E; cbn [obind]; [|reflexivity|reflexivity].
  pose proof (proj2 (vparse_typed m ba_GameSDetails eq_refl l r v Hl E)) as Hv. pose proof (details_conv v Hv) as C. unfold conv_at in C.
  destruct (details_from v) as [d|e|] eqn:Ed; cbn [obind]; [| |contradiction].
  - left. destruct C as [C1 C2]. destruct (shown_times v d Hv Ed) as [Ht Ho]. unfold set_details_metadata.
    destruct (time_near m _ _ Ht Ho) as (t & Et & Hn). rewrite Et. cbn [obind]. eexists. split; [reflexivity|]. split; [now apply details_shown_meta|].
    split; [exact C2|]. split; [reflexivity|]. exact Hn.
  - right. destruct C as [-> C2]. auto.
Qed.
Lemma init_new_cases : forall m file fs sha l, bytes_ok l ->
  match bparse m bp_ReplaySInitData (l, 0%nat) with
  | Ok (_, v) =>
      (exists d, init_new m file fs sha l = Ok d /\ init_shown v d /\ Forall is_utf8 (shown_texts init_skip v) /\
         xi_fs_id d = fs /\ xi_sha256 d = sha /\ xi_file_name d = file) \/
      (init_new m file fs sha l = Err EUtf8 /\ ~ Forall is_utf8 (shown_texts init_skip v))
  | Err e => init_new m file fs sha l = Err e
  | Panic => False
  end.
Proof.
  intros m file fs sha l Hl. unfold init_new. assert (Hc : cursor_ok (l, 0%nat)) by (split; [exact Hl|]; split; cbn [snd fst]; [lia|congruence]).
  assert (Hwf : wf_bty bp_ReplaySInitData = true) by (vm_compute; reflexivity). assert (Hno : no_overflow bp_ReplaySInitData = true) by (vm_compute; reflexivity).
  pose proof (bparse_np m bp_ReplaySInitData Hwf (fun _ => Hno) (l, 0%nat) Hc) as Hp.
  destruct (bparse m bp_ReplaySInitData (l, 0%nat)) as [[c v]|e|] eqn:E; cbn [obind]; [|reflexivity|congruence].
  pose proof (bparse_typed m _ _ _ _ Hwf Hno Hc E) as Hv. pose proof (init_conv v Hv) as C. unfold conv_at in C.
  destruct (init_from v) as [d|e|]; cbn [obind]; [| |contradiction].
  - left. destruct C as [C1 C2]. eexists. split; [reflexivity|]. split; [exact C1|]. split; [exact C2|]. split; [reflexivity|]. split; reflexivity.
  - right. destruct C as [-> C2]. auto.
Qed.
