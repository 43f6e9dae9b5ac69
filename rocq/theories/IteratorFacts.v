From Verif Require Import Base Vlq VlqProofs VlqExact Types BitSpec BitPacked BitProofs BitInterp BitFormat BitExact BitTotal BitFacts Versioned VersionedProofs ByteTypes ByteFacts BitTypes Dispatch Utf8 Tags TagFacts Events Convert ConvertSpec Typed ConvertFacts ConvertTracker Stream StreamFacts Iterators.
#[local] Open Scope string_scope.
#[local] Open Scope Z_scope.
#[local] Open Scope list_scope.

(** ** No parser reports "unsupported event" *)
Definition nu {A} (o : outcome A) : Prop := o <> Err EUnsupported.
Lemma nu_bind : forall A B (x : outcome A) (f : A -> outcome B), nu x -> (forall a, x = Ok a -> nu (f a)) -> nu (obind x f).
Proof. intros A B [a|e|] f Hx Hf; cbn [obind]; [now apply Hf|exact (fun Hr => Hx (f_equal (fun o => match o with Err e => Err e | _ => Panic end) Hr))|discriminate]. Qed.
Ltac nuts := repeat (first [discriminate | assumption | (apply nu_bind; [|intros ? _]) | progress cbn beta iota |
  match goal with
  | |- nu (if ?b then _ else _) => destruct b
  | |- nu (let '(_, _) := ?x in _) => destruct x
  | |- nu (match ?x with _ => _ end) => destruct x
  end]).
Lemma nu_shl : forall m a k, nu (shl_i64 m a k).
Proof. intros. unfold shl_i64. nuts. Qed.
Lemma nu_ovf : forall m z, nu (ovf_i64 m z).
Proof. intros. unfold ovf_i64. nuts. Qed.
Lemma nu_vlq_loop : forall m l r b, nu (vlq_loop m l r b).
Proof. intros m; induction l as [|x l IH]; intros r b; cbn [vlq_loop]; [discriminate|]. apply nu_bind; [apply nu_shl|intros s _]. destruct (_ =? 0); [discriminate|apply IH]. Qed.
Lemma nu_vlq : forall m l, nu (parse_vlq_int m l).
Proof.
  intros m [|b l]; unfold parse_vlq_int; [discriminate|]. apply nu_bind; [destruct (Z.land b 128 =? 0); [discriminate|apply nu_vlq_loop]|].
  intros [t r] _. destruct (negb _); [|discriminate]. apply nu_bind; [apply nu_ovf|discriminate].
Qed.
Lemma nu_tag : forall t l, nu (validate_tag t l).
Proof. intros t [|b l]; unfold validate_tag; nuts. Qed.
Lemma nu_take : forall n l, nu (take_bytes n l).
Proof. intros. unfold take_bytes. nuts. Qed.
Lemma nu_parse_n : forall (p : parser val), (forall l, nu (p l)) -> forall f n l, nu (parse_n f p n l).
Proof.
  intros p Hp; induction f as [|f IH]; intros n l; cbn [parse_n]; destruct (n =? 0); try discriminate.
  apply nu_bind; [apply Hp|]. intros [t v] _. apply nu_bind; [apply IH|]. intros [t' vs] _. discriminate.
Qed.
Definition slots_nu (s : slot) : Prop := forall l, nu (snd (fst s) l).
Lemma nu_step : forall slots tag l r, Forall slots_nu slots -> struct_step slots tag l = SStored r -> nu r /\ forall t s', r = Ok (t, s') -> Forall slots_nu s'.
Proof.
  induction slots as [|[[fd p] cur] slots IH]; intros tag l r Hf E; cbn [struct_step] in E; [discriminate|]. inversion Hf as [|? ? Hs Hss]; subst.
  destruct (f_tag fd =? tag).
  - destruct (slot_free _); [|discriminate]. injection E as <-. split.
    + apply nu_bind; [apply Hs|]. intros [t v] _. discriminate.
    + intros t s' E. apply obind_ok in E as ([t' v] & _ & E). injection E as <- <-. constructor; assumption.
  - destruct (struct_step slots tag l) as [| |o] eqn:Es; try discriminate. injection E as <-. destruct (IH _ _ _ Hss Es) as [Hn Hk]. split.
    + apply nu_bind; [exact Hn|]. intros [t v] _. discriminate.
    + intros t s' E. apply obind_ok in E as ([t' v] & Eo & E). injection E as <- <-. constructor; [assumption|]. eapply Hk. exact Eo.
Qed.
Lemma nu_loop : forall m f n slots l, Forall slots_nu slots -> nu (struct_loop f m n slots l).
Proof.
  intros m; induction f as [|f IH]; intros n slots l Hf; cbn [struct_loop]; destruct (n =? 0); try discriminate.
  apply nu_bind; [apply nu_vlq|]. intros [t z] _. destruct (struct_step slots z t) as [| |o] eqn:Es; try discriminate.
  destruct (nu_step _ _ _ _ Hf Es) as [Hn Hk]. apply nu_bind; [exact Hn|]. intros [t' s'] E. apply IH. eapply Hk. exact E.
Qed.
Lemma nu_finish : forall slots, nu (struct_finish slots).
Proof.
  induction slots as [|[[fd p] cur] slots IH]; cbn [struct_finish]; [discriminate|]. apply nu_bind.
  - destruct cur; [discriminate|]. destruct (f_fin fd); discriminate.
  - intros v _. apply nu_bind; [exact IH|]. discriminate.
Qed.
Lemma find_variant_in : forall A (l : list (Z * string * A)) t n a, find_variant l t = Some (n, a) -> In (t, n, a) l.
Proof.
  induction l as [|[[t' n'] a'] l IH]; intros t n a E; cbn [find_variant] in E; [discriminate|].
  destruct (Z.eqb_spec t' t) as [->|]; [injection E as <- <-; now left|right; now apply IH].
Qed.
Lemma nu_vparse : forall m t l, nu (vparse m t l).
Proof.
  intros m; induction t using vty_ind'; intros inp; cbn [vparse].
  - unfold tagged_vlq_int. apply nu_bind; [apply nu_bind; [apply nu_tag|intros; apply nu_vlq]|]. intros [t0 z] _. nuts.
  - unfold tagged_blob. apply nu_bind; [apply nu_bind; [apply nu_tag|]|].
    + intros t _. apply nu_bind; [apply nu_vlq|]. intros [t1 z] _. apply nu_take.
    + intros [t0 b] _. discriminate.
  - unfold tagged_bool. apply nu_bind; [apply nu_bind; [apply nu_tag|]|].
    + intros [|b t] _; discriminate.
    + intros [t0 b] _. discriminate.
  - unfold tagged_fourcc. apply nu_bind; [apply nu_bind; [apply nu_tag|]|].
    + intros t _. unfold take_u32_be. nuts.
    + intros [t0 b] _. discriminate.
  - apply nu_bind; [apply nu_tag|]. intros [|b tl] _; cbn [take_u8 obind]; [discriminate|]. destruct (negb _); [|discriminate].
    apply nu_bind; [apply IHt|]. intros [t0 v] _. discriminate.
  - apply nu_bind; [apply nu_tag|]. intros tl _. apply nu_bind; [apply nu_vlq|]. intros [t1 z] _. apply nu_bind; [apply nu_parse_n; exact IHt|]. intros [t2 vs] _. discriminate.
  - apply nu_bind; [apply nu_tag|]. intros tl _. apply nu_bind; [apply nu_vlq|]. intros [t1 z] _. destruct (find_enum l z); discriminate.
  - apply nu_bind; [apply nu_tag|]. intros tl _. apply nu_bind; [apply nu_vlq|]. intros [t1 z] _.
    destruct (find_variant _ z) as [[n p]|] eqn:Ef; [|discriminate]. apply find_variant_in in Ef. apply in_map_iff in Ef as (x & E & Hx).
    injection E as _ <-. rewrite Forall_forall in H. apply nu_bind; [apply (H _ Hx)|]. intros [t2 v] _. discriminate.
  - unfold parse_struct. apply nu_bind; [apply nu_tag|]. intros tl _. apply nu_bind; [apply nu_vlq|]. intros [t1 z] _.
    apply nu_bind; [|intros [t2 s] _; apply nu_bind; [apply nu_finish|discriminate]]. apply nu_loop.
    rewrite Forall_forall in *. intros s Hs. apply in_map_iff in Hs as (f & <- & Hf). exact (H _ Hf).
Qed.

Lemma nu_nom : forall n c, nu (nom_take n c).
Proof. intros n [bs off]. unfold nom_take. destruct (Nat.eqb n 0); [discriminate|]. destruct (Nat.ltb _ _); [discriminate|]. destruct (nom_take_loop _ _ _ _). discriminate. Qed.
Lemma nu_rtake : forall c n, nu (rtake_n_bits c n).
Proof.
  intros [bs off] n. unfold rtake_n_bits. destruct (Nat.ltb _ _).
  - apply nu_bind; [apply nu_nom|]. intros [c r] _. apply nu_bind; [apply nu_nom|]. intros [c' r'] _. apply nu_bind; [apply nu_nom|]. intros [c2 r2] _. discriminate.
  - apply nu_bind; [apply nu_nom|]. intros [c r] _. discriminate.
Qed.
Lemma nu_take_n : forall c n, nu (take_n_bits_into_i64 c n).
Proof.
  intros c n. unfold take_n_bits_into_i64. destruct (Nat.ltb 64 n); [discriminate|]. generalize (S n), 0. intros f. revert c n.
  induction f as [|f IH]; intros c n r; cbn [take_n_bits_loop]; [discriminate|]. apply nu_bind; [apply nu_rtake|]. intros b _.
  apply nu_bind; [apply nu_nom|]. intros [c' k] _. destruct (Nat.eqb _ 0); [discriminate|]. apply IH.
Qed.
Lemma nu_packed : forall m c o n, nu (parse_packed_int m c o n).
Proof. intros. unfold parse_packed_int. apply nu_bind; [apply nu_take_n|]. intros [c' z] _. apply nu_bind; [apply nu_ovf|]. discriminate. Qed.
Lemma nu_array : forall c n, nu (take_bit_array c n).
Proof.
  intros c n. unfold take_bit_array. generalize (S (S (length (fst c)))). intros f. revert c n.
  induction f as [|f IH]; intros c n; cbn [take_bit_array_loop]; [discriminate|]. apply nu_bind; [apply nu_rtake|]. intros b _.
  apply nu_bind; [apply nu_nom|]. intros [c' k] _. destruct (_ =? 0); [discriminate|]. apply nu_bind; [apply IH|]. intros [c2 l] _. discriminate.
Qed.
Lemma nu_align : forall c, nu (byte_align c).
Proof. intros c. unfold byte_align. destruct (Nat.eqb _ 0); [discriminate|]. apply nu_bind; [apply nu_nom|]. intros [c' k] _. discriminate. Qed.
Lemma nu_bool : forall c, nu (parse_bool c).
Proof. intros c. unfold parse_bool. apply nu_bind; [apply nu_rtake|]. intros b _. apply nu_bind; [apply nu_nom|]. intros [c' k] _. discriminate. Qed.
Lemma nu_bparse : forall m t c, nu (bparse m t c).
Proof.
  intros m; induction t using bty_ind'; intros c; cbn [bparse].
  - apply nu_bind; [apply nu_packed|]. intros [c' z] _. discriminate.
  - apply nu_bind; [apply nu_bool|]. intros [c' z] _. discriminate.
  - apply nu_bind; [unfold take_unaligned_byte; apply nu_bind; [apply nu_array|intros [c' [|b l]] _; discriminate]|]. intros [c' z] _. discriminate.
  - apply nu_bind; [apply nu_array|]. intros [c' z] _. discriminate.
  - discriminate.
  - discriminate.
  - apply nu_bind; [apply nu_bool|]. intros [c' [|]] _; [|discriminate]. apply nu_bind; [apply IHt|]. intros [c2 v] _. discriminate.
  - apply nu_bind; [apply nu_bool|]. intros [c' [|]] _; [|discriminate]. apply nu_bind; [apply IHt|]. intros [c2 v] _. discriminate.
  - apply nu_bind; [apply nu_take_n|]. intros [c' z] _. apply nu_bind; [|intros [c2 v] _; discriminate].
    generalize (Z.to_nat (as_u64 z)). intros k. revert c'. induction k as [|k IHk]; intros c'; cbn [bparse_n]; [discriminate|].
    apply nu_bind; [apply IHt|]. intros [c2 v] _. apply nu_bind; [apply IHk|]. intros [c3 vs] _. discriminate.
  - apply nu_bind; [apply nu_packed|]. intros [c' z] _. apply nu_bind; [apply nu_align|]. intros c2 _. apply nu_bind; [apply nu_array|]. intros [c3 l] _. discriminate.
  - apply nu_bind; [apply nu_align|]. intros c2 _. apply nu_bind; [apply nu_array|]. intros [c3 l] _. discriminate.
  - apply nu_bind; [apply nu_take_n|]. intros [c' z] _. apply nu_bind; [apply nu_take_n|]. intros [c3 l] _. discriminate.
  - apply nu_bind; [apply nu_take_n|]. intros [c' z] _. apply nu_bind; [apply nu_array|]. intros [c3 l] _. discriminate.
  - apply nu_bind; [apply nu_packed|]. intros [c' z] _. destruct (find_enum _ _); discriminate.
  - apply nu_bind; [apply nu_packed|]. intros [c' z] _.
    destruct (find_variant _ z) as [[s p]|] eqn:Ef; [|discriminate]. apply find_variant_in in Ef. apply in_map_iff in Ef as (x & E & Hx).
    injection E as _ <-. rewrite Forall_forall in H. apply nu_bind; [apply (H _ Hx)|]. intros [t2 v] _. discriminate.
  - apply nu_bind; [|intros [c3 l0] _; discriminate]. revert c. induction H as [|[s t] l Ht _ IHl]; intros c; cbn [map bparse_fields]; [discriminate|].
    cbn [fst snd] in *. apply nu_bind; [apply Ht|]. intros [c2 v] _. apply nu_bind; [apply IHl|]. intros [c3 vs] _. discriminate.
Qed.

(** ** One tracker event *)
Lemma var_value_nu : forall v, nu (var_value v).
Proof. intros []; try discriminate. destruct v; discriminate. Qed.
Lemma pair_nu : forall m p l, parse_event_pair m p l <> Err EUnsupported.
Proof.
  intros m p l. unfold parse_event_pair. apply nu_bind; [apply nu_vparse|]. intros [t d] _. apply nu_bind; [apply nu_vparse|]. intros [t' e] _.
  apply nu_bind; [apply var_value_nu|]. discriminate.
Qed.
Lemma tracker_type_eq : forall p, tracker_type p = ba_ReplayTrackerEEventId.
Proof. intros []; reflexivity. Qed.
Lemma pair_step : forall m p l t d v, bytes_ok l -> parse_event_pair m p l = Ok (t, (d, v)) ->
  bytes_ok t /\ suffix_of t l /\ (length t + 2 <= length l)%nat /\ 0 <= d < two32 /\ vtyped ba_ReplayTrackerEEventId v = true.
Proof.
  intros m p l t d v Hl E. unfold parse_event_pair in E. apply obind_ok in E as ([t1 dv] & E1 & E). apply obind_ok in E as ([t2 ev] & E2 & E).
  apply obind_ok in E as (d' & E3 & E). injection E as <- <- <-. rewrite tracker_type_eq in E2.
  destruct (vparse_typed m ba_SVarUint32 eq_refl _ _ _ Hl E1) as [H1 T1]. destruct (vparse_typed m ba_ReplayTrackerEEventId eq_refl _ _ _ H1 E2) as [H2 T2].
  pose proof (vparse_psuffix m _ _ _ _ Hl E1) as S1. pose proof (vparse_psuffix m _ _ _ _ H1 E2) as S2.
  split; [exact H2|]. split; [eapply suffix_trans; [apply psuffix_suffix; exact S2|apply psuffix_suffix; exact S1]|].
  apply psuffix_length in S1. apply psuffix_length in S2. split; [lia|]. split; [|exact T2].
  destruct (vt_choice _ _ _ T1) as (z & s & ty & w & -> & Hin & Hw). cbn [var_value] in E3. destruct w; try discriminate. injection E3 as ->.
  cbn [In] in Hin. destruct Hin as [E|[E|[E|[E|[]]]]]; injection E as <- <- <-; cbn [vtyped in_ity in_u8 in_u32] in Hw; unfold in_u8, in_u32 in Hw; apply andb_true_iff in Hw as [Ha Hb];
  apply Z.leb_le in Ha; apply Z.ltb_lt in Hb; unfold two32 in *; lia.
Qed.

(** ** One game or message event *)
Lemma triplet_nu : forall m t c, parse_event_triplet m t c <> Err EUnsupported.
Proof.
  intros m t c. unfold parse_event_triplet. apply nu_bind; [apply nu_bparse|]. intros [c1 d] _. apply nu_bind; [apply nu_bparse|]. intros [c2 u] _.
  apply nu_bind; [apply nu_bparse|]. intros [c3 e] _. apply nu_bind; [apply var_value_nu|]. intros z _. apply nu_bind; [apply nu_align|]. intros c4 _.
  apply nu_bind; [|discriminate]. unfold get. apply nu_bind; [destruct u; try discriminate|intros []; discriminate].
  cbn [field]. induction l as [|[k w] l IH]; cbn [lookup]; [discriminate|]. destruct (String.eqb _ _); [discriminate|exact IH].
Qed.
Definition aligned (c : cursor) : Prop := cursor_ok c /\ snd c = 0%nat.
Lemma bparse_len : forall m t c c' v, wf_bty t = true -> cursor_ok c -> bparse m t c = Ok (c', v) ->
  cursor_ok c' /\ (length (stream c') + min_bits t <= length (stream c))%nat /\ suffix_of (fst c') (fst c).
Proof.
  intros m t c c' v Hwf Hc E. pose proof (sound_ok _ _ _ _ _ Hwf Hc E) as Hc'. split; [exact Hc'|].
  destruct (bparse_sound m t Hwf c c' v Hc E) as (l & [r Hp] & -> & B). pose proof (min_bits_le _ _ _ _ _ B) as Hm.
  assert (Hl : (length l <= length (stream c))%nat) by (rewrite Hp, app_length; lia).
  destruct (advance_bits c (length l) Hl) as [Es Hsuf]. split; [|exact Hsuf]. rewrite Es, skipn_length. lia.
Qed.
Lemma triplet_step : forall m t c c' d u v, wf_bty t = true -> no_overflow t = true -> (2 <= min_bits t)%nat -> aligned c -> parse_event_triplet m t c = Ok (c', (d, (u, v))) ->
  aligned c' /\ suffix_of (fst c') (fst c) /\ (length (fst c') + 2 <= length (fst c))%nat /\ 0 <= d < two32 /\ 0 <= u < 32 /\ btyped t v = true.
Proof.
  intros m t c c' d u v Hwf Hno Hmin [Hc Ha] E. unfold parse_event_triplet in E.
  apply obind_ok in E as ([c1 dv] & E1 & E). apply obind_ok in E as ([c2 uv] & E2 & E). apply obind_ok in E as ([c3 ev] & E3 & E).
  apply obind_ok in E as (d' & E4 & E). apply obind_ok in E as (c4 & E5 & E). apply obind_ok in E as (u' & E6 & E). injection E as <- <- <- <-.
  destruct (bparse_len _ bp_SVarUint32 _ _ _ eq_refl Hc E1) as (H1 & L1 & S1).
  destruct (bparse_len _ bp_ReplaySGameUserId _ _ _ eq_refl H1 E2) as (H2 & L2 & S2).
  destruct (bparse_len _ t _ _ _ Hwf H2 E3) as (H3 & L3 & S3).
  destruct (byte_align_facts c3 H3) as (c5 & k & Eb & Ek & Hk & Hs0 & Hsame & _). rewrite E5 in Eb. injection Eb as <-.
  change (min_bits bp_SVarUint32) with 2%nat in L1. change (min_bits bp_ReplaySGameUserId) with 5%nat in L2.
  assert (H4 : cursor_ok c4 /\ suffix_of (fst c4) (fst c3) /\ (length (stream c4) <= length (stream c3))%nat).
  { rewrite byte_align_spec in E5 by assumption. assert (E5' : advance c3 ((8 - snd c3) mod 8) = c4) by congruence. clear E5. destruct (Nat.eq_dec (snd c3) 0) as [E0|E0].
    - rewrite (Hsame E0). split; [exact H3|split; [apply suffix_refl|lia]].
    - destruct H3 as (Hb & Ho & Hne). rewrite Nat.mod_small in E5' by lia. rewrite <- E5'.
      assert (Hle : (8 - snd c3 <= length (stream c3))%nat). { rewrite stream_length. specialize (Hne E0). destruct (fst c3); [contradiction|]. cbn [length]. lia. }
      split; [apply advance_ok; [split; [exact Hb|split; [exact Ho|exact Hne]]|exact Hle]|]. destruct (advance_bits c3 _ Hle) as [Es Hsu]. split; [exact Hsu|]. rewrite Es, skipn_length. lia. }
  destruct H4 as (H4 & S4 & L4).
  split; [split; assumption|]. split; [eapply suffix_trans; [exact S4|]; eapply suffix_trans; [exact S3|]; eapply suffix_trans; [exact S2|exact S1]|].
  rewrite !stream_length in *. apply suffix_length in S4. destruct H3 as (_ & Ho3 & _).
  split; [lia|].
  assert (T1 : btyped bp_SVarUint32 dv = true) by (eapply (bparse_typed m bp_SVarUint32 c c1); [reflexivity|reflexivity|exact Hc|exact E1]).
  assert (T2 : btyped bp_ReplaySGameUserId uv = true) by (eapply (bparse_typed m bp_ReplaySGameUserId c1 c2); [reflexivity|reflexivity|exact H1|exact E2]).
  assert (T3 : btyped t ev = true) by (eapply (bparse_typed m t c2 c3); [exact Hwf|exact Hno|exact H2|exact E3]).
  split; [|split; [|exact T3]].
  - destruct (bt_choice _ _ _ T1) as (z & s & ty & w & -> & Hin & Hw). cbn [var_value] in E4. destruct w; try discriminate. injection E4 as ->.
    cbn [In] in Hin. destruct Hin as [E|[E|[E|[E|[]]]]]; injection E as <- <- <-; (eapply bt_int in Hw; [|reflexivity]); destruct Hw as (z & E & Hz); injection E as ->; cbn in Hz; unfold two32; lia.
  - clear T1 T3. binv. cbn in E6. injection E6 as <-. exact Hz.
Qed.

(** ** Conversions never panic *)
Definition np {A} (o : outcome A) : Prop := o <> Panic.
Lemma np_bind : forall A B (x : outcome A) (f : A -> outcome B), np x -> (forall a, np (f a)) -> np (obind x f).
Proof. intros A B [a|e|] f Hx Hf; cbn [obind]; [apply Hf|discriminate|contradiction]. Qed.
Lemma np_field : forall n v, np (field n v).
Proof. intros n []; try discriminate. cbn [field]. induction l as [|[k w] l IH]; cbn [lookup]; [discriminate|]. destruct (String.eqb k n); [discriminate|exact IH]. Qed.
Lemma np_get : forall A (f : val -> outcome A) n v, (forall w, np (f w)) -> np (get f n v).
Proof. intros. unfold get. apply np_bind; [apply np_field|assumption]. Qed.
Lemma np_int : forall v, np (to_int v). Proof. intros []; discriminate. Qed.
Lemma np_tobool : forall v, np (to_bool v). Proof. intros []; discriminate. Qed.
Lemma np_bytes : forall v, np (to_bytes v). Proof. intros []; discriminate. Qed.
Lemma np_enum : forall v, np (to_enum v). Proof. intros []; discriminate. Qed.
Lemma np_cast : forall c v, np (cast c v). Proof. intros. unfold cast. apply np_bind; [apply np_int|discriminate]. Qed.
Lemma np_opt : forall A (f : val -> outcome A) v, (forall w, np (f w)) -> np (to_opt f v).
Proof. intros A f v Hf; destruct v as [| | | |[w|]| | | |]; try discriminate. cbn [to_opt]. apply np_bind; [apply Hf|discriminate]. Qed.
Lemma np_map : forall A B (f : A -> outcome B) l, (forall a, np (f a)) -> np (map_out f l).
Proof. intros A B f l Hf. induction l as [|a l IH]; cbn [map_out]; [discriminate|]. apply np_bind; [apply Hf|]. intros b. apply np_bind; [exact IH|discriminate]. Qed.
Lemma np_list : forall A (f : val -> outcome A) v, (forall w, np (f w)) -> np (to_list f v).
Proof. intros A f v Hf; destruct v; try discriminate. now apply np_map. Qed.
Lemma np_utf8 : forall l, np (from_utf8 l).
Proof. intros l. unfold from_utf8. destruct (utf8_ok l); discriminate. Qed.
Lemma np_name : forall v, np (to_name v).
Proof. intros v. unfold to_name. apply np_bind; [apply np_bytes|apply np_utf8]. Qed.
Ltac nps := repeat (first [discriminate | (apply np_bind; [|intros ?]) | apply np_get; intros ? | apply np_opt; intros ? | apply np_list; intros ? | apply np_int | apply np_tobool | apply np_bytes
  | apply np_enum | apply np_cast | apply np_name | apply np_utf8 | apply np_field]).
Lemma np_coord3 : forall v, np (coord3_from v). Proof. intros v. unfold coord3_from. nps. Qed.
Lemma np_uic : forall v, np (ui_coord_from v). Proof. intros v. unfold ui_coord_from. nps. Qed.
Lemma np_point : forall v, np (point_from v). Proof. intros v. unfold point_from. nps. Qed.
Lemma np_stats : forall v, np (stats_from v). Proof. intros v. unfold stats_from. apply np_map. intros [[n src] b]. nps. Qed.
Lemma np_abil : forall v, np (cmd_abil_from v). Proof. intros v. unfold cmd_abil_from. nps. Qed.
Lemma np_target : forall v, np (target_unit_from v). Proof. intros v. unfold target_unit_from, coord3_from. nps. Qed.
Lemma np_subgroup : forall v, np (subgroup_from v). Proof. intros v. unfold subgroup_from. nps. Qed.
Lemma np_mask : forall v, np (sel_mask_from v).
Proof. intros v. unfold sel_mask_from. destruct v; try discriminate. repeat (destruct (String.eqb _ _); [nps|]). discriminate. Qed.
Lemma np_cmd_data : forall v, np (cmd_data_from v).
Proof. intros v. unfold cmd_data_from. destruct v; try discriminate. repeat (destruct (String.eqb _ _); [nps; try (apply np_coord3 || apply np_target)|]). discriminate. Qed.
Lemma np_reason : forall s, np (leave_reason s).
Proof. intros s. unfold leave_reason. destruct (find _ _) as [[a b]|]; discriminate. Qed.
Lemma np_update : forall s, np (group_update_from s).
Proof. intros s. unfold group_update_from. repeat (destruct (String.eqb _ _); [discriminate|]). discriminate. Qed.
Lemma tracker_from_np : forall v, tracker_from v <> Panic.
Proof.
  intros v. unfold tracker_from. destruct v as [| | | | | | |s w|]; try discriminate.
  repeat (match goal with |- context [if ?b then _ else _] => destruct b end;
    [unfold player_stats_from, unit_born_from, unit_died_from, unit_owner_from, unit_type_from, upgrade_from, unit_init_from, unit_done_from, unit_positions_from, player_setup_from; nps; try apply np_stats|]).
  discriminate.
Qed.
Lemma find_Forall : forall A (P : A -> Prop) f l x, Forall P l -> find f l = Some x -> P x.
Proof. intros A P f l x Hf E. apply find_some in E as [Hin _]. rewrite Forall_forall in Hf. now apply Hf. Qed.
Lemma game_conversions_np : Forall (fun x => forall w, np (snd x w)) game_conversions.
Proof.
  unfold game_conversions.
  repeat constructor; cbn [snd]; intros w;
  unfold drop_user_from, camera_save_from, camera_update_from, cmd_from, selection_delta_from, control_group_from, sync_check_from, chat_from, unit_click_from, unit_highlight_from, reply_from,
   hotkey_from, target_mode_from, key_from, button_from, mouse_click_from, mouse_move_from, mouse_wheel_from, target_point_from, target_unit_event_from, manager_state_from; nps;
  try first [apply np_reason | apply np_point | apply np_abil | apply np_cmd_data | apply np_subgroup | apply np_mask | apply np_update | apply np_uic | apply np_coord3 | apply np_target].
Qed.
Lemma game_from_np : forall v, game_from v <> Panic.
Proof.
  intros v. unfold game_from. destruct v as [| | | | | | |s w|]; try discriminate.
  destruct (find _ _) as [[n f]|] eqn:E; [|discriminate]. exact (find_Forall _ _ _ _ _ game_conversions_np E w).
Qed.
Lemma message_from_np : forall v, message_from v <> Panic.
Proof.
  intros v. unfold message_from. destruct v as [| | | | | | |s w|]; try discriminate.
  repeat match goal with |- (match ?x with _ => _ end) <> Panic => destruct x; try discriminate end.
  change (np (do r <- get to_enum "m_recipient" w; do l <- get to_bytes "m_string" w; do s <- from_utf8 l; Ok (mk_chat r s))). nps.
Qed.
