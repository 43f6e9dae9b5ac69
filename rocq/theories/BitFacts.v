(** * Facts about the extracted bit-packed descriptors, and lemmas behind PropsBits *)
From Verif Require Import Base VlqSpec BitSpec BitPacked BitProofs Types Versioned BitInterp BitFormat VersionedSpec
  VlqExact VersionedProofs VersionedExact BitExact BitTotal BitEncode BitTypes ByteTypes ByteFacts.
#[local] Open Scope string_scope.
#[local] Open Scope Z_scope.
#[local] Open Scope list_scope.

(** All 289 types of protocol 87702 and the 6 of protocol 75689. *)
Definition bit_types : list (string * bty) := bp_all ++ bp75_all.

Lemma bit_wf_b : forallb (fun x => wf_bty (snd x)) bit_types = true.
Proof. vm_compute. reflexivity. Qed.
Lemma bit_wf : forall n t, In (n, t) bit_types -> wf_bty t = true.
Proof. intros n t H. pose proof bit_wf_b as Hb. rewrite forallb_forall in Hb. exact (Hb _ H). Qed.

Lemma bit_overflow_types : map fst (filter (fun x => negb (no_overflow (snd x))) bit_types) = ["Int64"; "GameSDetails"].
Proof. vm_compute. reflexivity. Qed.

Lemma bit_no_overflow : forall n t, In (n, t) bit_types -> n <> "Int64" -> n <> "GameSDetails" -> no_overflow t = true.
Proof.
  intros n t Hin H1 H2. destruct (no_overflow t) eqn:E; [reflexivity|]. exfalso.
  assert (Hf : In n (map fst (filter (fun x => negb (no_overflow (snd x))) bit_types))).
  { apply in_map_iff. exists (n, t). split; [reflexivity|]. apply filter_In. split; [assumption|]. cbn [snd]. rewrite E. reflexivity. }
  rewrite bit_overflow_types in Hf. cbn in Hf. intuition congruence.
Qed.

(** ** positions *)
Lemma take_n_fails : forall c n, cursor_ok c ->
  ((forall r, take_n_bits_into_i64 c n <> Ok r) <-> (length (stream c) < n \/ 64 < n)%nat).
Proof.
  intros c n Hc. destruct (Nat.leb_spec n 64) as [Hn|Hn].
  - rewrite take_n_bits_spec by assumption. destruct (Nat.ltb_spec (length (stream c)) n) as [H|H]; split; intros G.
    + left; assumption.
    + discriminate.
    + exfalso. eapply G. reflexivity.
    + exfalso. lia.
  - unfold take_n_bits_into_i64. replace (Nat.ltb 64 n) with true by (symmetry; apply Nat.ltb_lt; lia).
    split; [right; assumption|discriminate].
Qed.

Lemma take_n_value : forall c n, cursor_ok c -> (n <= 64)%nat -> (n <= length (stream c))%nat ->
  take_n_bits_into_i64 c n = Ok (advance c n, as_i64 (be_value (snd c) (firstn n (stream c)))).
Proof.
  intros c n Hc Hn Hl. rewrite take_n_bits_spec by assumption.
  destruct (Nat.ltb_spec (length (stream c)) n); [lia|reflexivity].
Qed.

Lemma take_n_unsigned : forall c n c' z, cursor_ok c -> (n < 64)%nat -> take_n_bits_into_i64 c n = Ok (c', z) ->
  z = be_value (snd c) (firstn n (stream c)) /\ 0 <= z < 2 ^ Z.of_nat n.
Proof.
  intros c n c' z Hc Hn H. rewrite take_n_bits_spec in H by (assumption || lia).
  destruct (Nat.ltb_spec (length (stream c)) n) as [|Hl]; [discriminate|]. injection H as <- <-.
  assert (B : 0 <= be_value (snd c) (firstn n (stream c)) < 2 ^ Z.of_nat n).
  { pose proof (be_value_bound (firstn n (stream c)) (snd c)) as B. rewrite firstn_length_le in B by assumption. apply B. apply Hc. }
  assert (2 ^ Z.of_nat n <= 2 ^ 63) by (apply Z.pow_le_mono_r; lia).
  rewrite as_i64_id by (unfold two63; lia). auto.
Qed.

Lemma take_n_round_trip : forall c n v rest, cursor_ok c -> (n <= 64)%nat -> 0 <= v < 2 ^ Z.of_nat n ->
  stream c = be_bits (snd c) n v ++ rest -> take_n_bits_into_i64 c n = Ok (advance c n, as_i64 v).
Proof.
  intros c n v rest Hc Hn Hv E. assert (Ho : (snd c < 8)%nat) by apply Hc.
  rewrite take_n_value; auto.
  - rewrite E, firstn_app, be_bits_length, Nat.sub_diag, firstn_O, app_nil_r by assumption.
    rewrite firstn_all2 by (rewrite be_bits_length; auto). rewrite be_bits_value, Z.mod_small by assumption. reflexivity.
  - rewrite E, app_length, be_bits_length by assumption. lia.
Qed.

(** The remaining bytes after a step are a suffix, the bits the rest. *)
Lemma advance_bits : forall c n, (n <= length (stream c))%nat ->
  stream (advance c n) = skipn n (stream c) /\ suffix_of (fst (advance c n)) (fst c).
Proof. intros c n H. split; [apply stream_advance|apply advance_suffix]. Qed.

Lemma byte_align_facts : forall c, cursor_ok c ->
  exists c' k, byte_align c = Ok c' /\ c' = advance c k /\ (k < 8)%nat /\ snd c' = 0%nat /\ (snd c = 0%nat -> c' = c) /\ byte_align c' = Ok c'.
Proof.
  intros c Hc. destruct (byte_align c) as [c'| |] eqn:E; rewrite byte_align_spec in E by assumption; try discriminate.
  injection E as <-. assert (Ho : (snd c < 8)%nat) by apply Hc.
  assert (Z0 : snd (advance c ((8 - snd c) mod 8)) = 0%nat).
  { rewrite advance_snd. destruct (Nat.eq_dec (snd c) 0) as [->|H]; [reflexivity|]. rewrite (Nat.mod_small (8 - snd c)) by lia.
    replace (snd c + (8 - snd c))%nat with (1 * 8)%nat by lia. apply Nat.mod_mul. lia. }
  assert (Z1 : forall d, snd d = 0%nat -> byte_align d = Ok d).
  { intros [bs o] Hd. cbn in Hd. subst o. reflexivity. }
  apply Z1 in Z0 as Z1'. clear Z1. rename Z1' into Z1.
  eexists; exists ((8 - snd c) mod 8)%nat. split; [reflexivity|]. split; [reflexivity|].
  split; [apply Nat.mod_upper_bound; lia|]. split; [assumption|]. split.
  - intros ->. apply advance_0. assumption.
  - exact Z1.
Qed.

(** ** truncated input *)
Lemma realize : forall off bits, (off < 8)%nat -> exists c rest, cursor_ok c /\ snd c = off /\ stream c = bits ++ rest.
Proof.
  intros off bits Ho. set (k := length (repeat false off ++ bits)).
  set (l := (repeat false off ++ bits) ++ repeat false (8 * (k / 8 + 1) - k)).
  assert (Hk : (k < 8 * (k / 8 + 1))%nat) by (pose proof (Nat.div_mod k 8); pose proof (Nat.mod_upper_bound k 8); lia).
  assert (L : length l = (8 * (k / 8 + 1))%nat) by (unfold l; rewrite app_length, repeat_length; fold k; lia).
  destruct (flat_be_bytes _ l L) as [F1 F2].
  exists (be_bytes 0 l, off), (repeat false (8 * (k / 8 + 1) - k)). split; [|split; [reflexivity|]].
  - split; [assumption|split; [assumption|]]. intros _ E. apply (f_equal (@length Z)) in E.
    cbn [fst] in E. rewrite be_bytes_length, L in E. cbn [length] in E.
    replace (8 * (k / 8 + 1) + 7)%nat with (7 + (k / 8 + 1) * 8)%nat in E by lia. rewrite Nat.div_add in E by lia. change (7 / 8)%nat with 0%nat in E. lia.
  - unfold stream. cbn [fst snd]. rewrite F1. unfold l. rewrite <- app_assoc, skipn_app, repeat_length, Nat.sub_diag.
    rewrite skipn_all2 by (rewrite repeat_length; lia). reflexivity.
Qed.

Lemma app_inj_len : forall A (a b c d : list A), length a = length b -> a ++ c = b ++ d -> a = b /\ c = d.
Proof.
  intros A; induction a as [|x a IH]; intros [|y b] c d L E; try discriminate; [auto|].
  cbn in *. injection E as -> E. destruct (IH b c d) as [-> ->]; auto.
Qed.

Lemma bit_prefix_free : forall m t off v1 v2 l1 l2 s1 s2, wf_bty t = true -> (off < 8)%nat ->
  benc (crate m) t off v1 l1 -> benc (crate m) t off v2 l2 -> l1 ++ s1 = l2 ++ s2 -> v1 = v2 /\ l1 = l2 /\ s1 = s2.
Proof.
  intros m t off v1 v2 l1 l2 s1 s2 Hwf Ho B1 B2 E. destruct (realize off (l1 ++ s1) Ho) as (c & rest & Hc & <- & Es).
  pose proof (bparse_complete m t Hwf c v1 l1 Hc) as C1. pose proof (bparse_complete m t Hwf c v2 l2 Hc) as C2.
  rewrite C1 in C2; try assumption; [..|exists (s1 ++ rest); rewrite Es, app_assoc; reflexivity].
  - assert (P2 : pre l2 (stream c)) by (exists (s2 ++ rest); rewrite Es, E, app_assoc; reflexivity).
    assert (Hl1 : (length l1 <= length (stream c))%nat) by (rewrite Es, !app_length; lia).
    assert (Hl2 : (length l2 <= length (stream c))%nat) by (rewrite Es, E, !app_length; lia).
    specialize (C2 P2 B2). assert (Ea : advance c (length l1) = advance c (length l2)) by congruence. assert (Ev : v1 = v2) by congruence.
    assert (L : length l1 = length l2).
    { apply (f_equal (fun x => length (stream x))) in Ea. rewrite !stream_advance, !skipn_length in Ea. lia. }
    split; [assumption|]. apply app_inj_len; assumption.
Qed.

Lemma bit_truncated : forall m t c v bits more, wf_bty t = true -> cursor_ok c ->
  benc (crate m) t (snd c) v bits -> bits = stream c ++ more -> more <> [] -> forall r, bparse m t c <> Ok r.
Proof.
  intros m t c v bits more Hwf Hc B E Hm [c' v'] H.
  apply bparse_sound in H as (l & [r Er] & -> & B'); try assumption.
  assert (Ho : (snd c < 8)%nat) by apply Hc.
  destruct (bit_prefix_free m t (snd c) v v' bits l [] (r ++ more) Hwf Ho B B') as (_ & _ & E').
  - rewrite app_nil_r, E, Er, app_assoc. reflexivity.
  - symmetry in E'. apply app_eq_nil in E' as [_ E']. contradiction.
Qed.

Lemma byte_truncated : forall name t v bs l more, In (name, t) ba_all -> input_ok l ->
  venc false t v bs -> bs = l ++ more -> more <> [] -> forall r, vparse Checked t l <> Ok r.
Proof.
  intros name t v bs l more Hin Hl B E Hm [r v'] H. apply ba_wf in Hin.
  apply (vparse_exact t Hin l r v' Hl) in H as (bs' & -> & B').
  pose proof (vparse_complete false Checked t v bs [] Hin B) as C1.
  pose proof (vparse_complete false Checked t v' bs' (r ++ more) Hin B') as C2.
  rewrite app_nil_r, E, <- app_assoc, C2 in C1. injection C1 as C1 _.
  apply app_eq_nil in C1 as [_ C1]. contradiction.
Qed.

(** ** optional fields *)
Lemma opt_spec : forall m t c, cursor_ok c ->
  bparse m (BOpt t) c = match stream c with
    | [] => Err ENom
    | false :: _ => Ok (advance c 1, VOpt None)
    | true :: _ => do (c', v) <- bparse m t (advance c 1); Ok (c', VOpt (Some v))
    end.
Proof.
  intros m t c Hc. cbn [bparse]. rewrite parse_bool_spec by assumption.
  destruct (stream c) as [|[] s]; reflexivity.
Qed.

Fixpoint has_reread (t : bty) : bool :=
  match t with
  | BInt _ _ | BBool | BByte | BFourcc | BNull | BUnit | BBlob _ | BFixedBlob _ | BBitInt _ | BBitArray _ | BEnum _ _ => false
  | BOptReread _ => true
  | BOpt t' | BArray _ t' => has_reread t'
  | BChoice _ l => existsb (fun x => has_reread (snd x)) l
  | BStruct fs => existsb (fun x => has_reread (snd x)) fs
  end.

Lemma reread_types : map fst (filter (fun x => has_reread (snd x)) bit_types)
  = ["Smd5"; "GameSCommandManagerStateEvent"; "GameEEventId"; "GameEEventId"].
Proof. vm_compute. reflexivity. Qed.

(** ** witnesses *)
Definition to_bytes (bits : list bool) : list Z := be_bytes 0 (bits ++ repeat false ((8 - length bits mod 8) mod 8)).

Definition cms_value : val := VStruct [("m_state", VEnum "EFireOnce"); ("m_sequence", VOpt (Some (VInt 7)))].
Definition smd5_value : val := VStruct [("m_data_deprecated", VOpt (Some (VList [VInt 1; VInt 2]))); ("m_data", VList [VInt 3])].

Definition cms_bits : list bool := match bencode bp_GameSCommandManagerStateEvent 0 cms_value with Some l => l | None => [] end.
Definition smd5_bits : list bool := match bencode bp_Smd5 0 smd5_value with Some l => l | None => [] end.

Lemma byte_list_ok : forall l, forallb in_u8 l = true -> bytes_ok l.
Proof. exact forallb_u8. Qed.

Lemma reread_witness :
  (exists v bits c rest, benc blizzard bp_GameSCommandManagerStateEvent (snd c) v bits /\ cursor_ok c /\
     stream c = bits ++ rest /\ exists c' v', bparse Wrapping bp_GameSCommandManagerStateEvent c = Ok (c', v') /\
     v = VStruct [("m_state", VEnum "EFireOnce"); ("m_sequence", VOpt (Some (VInt 7)))] /\
     v' = VStruct [("m_state", VEnum "EFireOnce"); ("m_sequence", VOpt (Some (VInt 67108867)))]) /\
  (exists v bits c rest, benc blizzard bp_Smd5 (snd c) v bits /\ cursor_ok c /\
     stream c = bits ++ rest /\ bparse Wrapping bp_Smd5 c = Err ENom).
Proof.
  split.
  - exists cms_value, cms_bits, ([5; 0; 0; 0; 6], 0%nat), (repeat false 5). split; [|split; [|split]].
    + apply bencode_benc; [reflexivity|cbn; lia|vm_compute; reflexivity].
    + split; [apply byte_list_ok; reflexivity|split; [cbn; lia|discriminate]].
    + vm_compute. reflexivity.
    + eexists. eexists. split; [vm_compute; reflexivity|split; reflexivity].
  - exists smd5_value, smd5_bits, ([5; 1; 2; 1; 3], 0%nat), (repeat false 5). split; [|split; [|split]].
    + apply bencode_benc; [reflexivity|cbn; lia|vm_compute; reflexivity].
    + split; [apply byte_list_ok; reflexivity|split; [cbn; lia|discriminate]].
    + vm_compute. reflexivity.
    + vm_compute. reflexivity.
Qed.

(** An [Int64] field of value 0. *)
Lemma int64_witness : exists v bits c, benc blizzard bp_Int64 (snd c) v bits /\ cursor_ok c /\ stream c = bits /\
  v = VInt 0 /\ bparse Checked bp_Int64 c = Panic /\ exists c', bparse Wrapping bp_Int64 c = Ok (c', v).
Proof.
  exists (VInt 0), (be_bits 0 64 (2 ^ 63)), ([128; 0; 0; 0; 0; 0; 0; 0], 0%nat). split; [|split; [|split; [|split; [|split]]]].
  - apply bencode_benc; [reflexivity|cbn; lia|vm_compute; reflexivity].
  - split; [apply byte_list_ok; reflexivity|split; [cbn; lia|discriminate]].
  - vm_compute. reflexivity.
  - reflexivity.
  - vm_compute. reflexivity.
  - eexists. vm_compute. reflexivity.
Qed.

(** An empty file path. *)
Lemma empty_blob_witness : exists bits c, benc blizzard bp_CFilePath (snd c) (VBytes []) bits /\ cursor_ok c /\
  stream c = bits /\ forall m, exists c', bparse m bp_CFilePath c = Ok (c', VBytes [0]).
Proof.
  exists (repeat false 16), ([0; 0], 0%nat). split; [|split; [|split]].
  - apply bencode_benc; [reflexivity|cbn; lia|vm_compute; reflexivity].
  - split; [apply byte_list_ok; reflexivity|split; [cbn; lia|discriminate]].
  - vm_compute. reflexivity.
  - intros m. eexists. destruct m; vm_compute; reflexivity.
Qed.

Lemma round_trip_refuted : 
  (exists name t v bits c rest m, In (name, t) bit_types /\ benc blizzard t (snd c) v bits /\ cursor_ok c /\ stream c = bits ++ rest /\
     bparse m t c <> Ok (advance c (length bits), v)).
Proof.
  destruct empty_blob_witness as (bits & c & B & Hc & E & P). destruct (P Checked) as [c' P'].
  exists "CFilePath", bp_CFilePath, (VBytes []), bits, c, [], Checked. split; [left; reflexivity|].
  repeat split; try assumption; try (rewrite app_nil_r; assumption); try apply Hc.
  rewrite P'. intros X. injection X as _ X. discriminate X.
Qed.

Lemma bit_panic_witness : exists c, cursor_ok c /\ bparse Checked bp_Int64 c = Panic.
Proof. destruct int64_witness as (v & bits & c & _ & Hc & _ & _ & P & _). exists c. auto. Qed.

Lemma packed_int_value : forall m c o n, cursor_ok c -> (n < 64)%nat -> - two63 <= o -> o + 2 ^ Z.of_nat n <= two63 ->
  (n <= length (stream c))%nat ->
  parse_packed_int m c o n = Ok (advance c n, o + be_value (snd c) (firstn n (stream c)))
  /\ o <= o + be_value (snd c) (firstn n (stream c)) < o + 2 ^ Z.of_nat n.
Proof.
  intros m c o n Hc Hn Ho1 Ho2 Hl.
  assert (B : 0 <= be_value (snd c) (firstn n (stream c)) < 2 ^ Z.of_nat n).
  { pose proof (be_value_bound (firstn n (stream c)) (snd c)) as B. rewrite firstn_length_le in B by assumption. apply B. apply Hc. }
  split; [|lia]. pose proof (packed_int_complete m c o (firstn n (stream c)) Hc) as P.
  rewrite firstn_length_le in P by assumption. rewrite P; [|lia|apply pre_firstn; assumption|].
  - do 2 f_equal. apply as_i64_id. lia.
  - intros _. apply in_i64_true. assert (2 ^ Z.of_nat n <= 2 ^ 63) by (apply Z.pow_le_mono_r; lia).
    rewrite as_i64_id by (unfold two63 in *; lia). lia.
Qed.

Lemma packed_64_wrapping : forall c, cursor_ok c -> (64 <= length (stream c))%nat ->
  parse_packed_int Wrapping c (- two63) 64 = Ok (advance c 64, be_value (snd c) (firstn 64 (stream c)) - two63).
Proof.
  intros c Hc Hl. pose proof (packed_int_complete Wrapping c (- two63) (firstn 64 (stream c)) Hc) as P.
  rewrite firstn_length_le in P by assumption. rewrite P; [|lia|apply pre_firstn; assumption|discriminate].
  assert (B : 0 <= be_value (snd c) (firstn 64 (stream c)) < 2 ^ Z.of_nat 64).
  { pose proof (be_value_bound (firstn 64 (stream c)) (snd c)) as B. rewrite firstn_length_le in B by assumption. apply B. apply Hc. }
  change (2 ^ Z.of_nat 64) with two64 in B. do 2 f_equal. rewrite as_i64_id by (unfold two63, two64 in *; lia). lia.
Qed.

Lemma take_array_value : forall c n, cursor_ok c -> 0 < n -> n <= Z.of_nat (length (stream c)) ->
  exists l, take_bit_array c n = Ok (advance c (Z.to_nat n), l) /\
    l = be_bytes (snd c) (firstn (Z.to_nat n) (stream c)) /\ Z.of_nat (length l) = (n + 7) / 8 /\ bytes_ok l.
Proof.
  intros c n Hc Hn Hl. rewrite take_bit_array_spec by assumption.
  destruct (Z.ltb_spec (Z.of_nat (length (stream c))) n); [lia|]. eexists. split; [reflexivity|]. split; [reflexivity|]. split.
  - rewrite be_bytes_length, firstn_length_le by lia. rewrite Nat2Z.inj_div, Nat2Z.inj_add, Z2Nat.id by lia. reflexivity.
  - apply be_bytes_ok. apply Hc.
Qed.

Lemma take_fourcc_bytes : forall c, cursor_ok c ->
  (length (stream c) < 32)%nat /\ take_fourcc c = Err ENom \/
  exists b0 b1 b2 b3, take_fourcc c = Ok (advance c 32, [b0; b1; b2; b3]) /\
    b0 = be_value (snd c) (firstn 8 (stream c)) /\ b1 = be_value (snd c) (firstn 8 (skipn 8 (stream c))) /\
    b2 = be_value (snd c) (firstn 8 (skipn 16 (stream c))) /\ b3 = be_value (snd c) (firstn 8 (skipn 24 (stream c))).
Proof.
  intros c Hc. rewrite take_fourcc_spec by assumption.
  destruct (Nat.ltb_spec (length (stream c)) 32) as [H|H]; [left; auto|right].
  set (s := stream c) in *. clearbody s. do 4 eexists. split; [|repeat split; reflexivity].
  do 2 f_equal.
  assert (G : forall k l, length l = (8 * S k)%nat -> be_bytes (snd c) l = be_value (snd c) (firstn 8 l) :: be_bytes (snd c) (skipn 8 l)).
  { intros k l L. apply be_bytes_step. intros ->. cbn in L. lia. }
  assert (L0 : length (firstn 32 s) = 32%nat) by (apply firstn_length_le; assumption).
  rewrite (G 3%nat) by (rewrite L0; reflexivity). rewrite (G 2%nat) by (rewrite skipn_length, L0; reflexivity).
  rewrite (G 1%nat) by (rewrite !skipn_length, L0; reflexivity). rewrite (G 0%nat) by (rewrite !skipn_length, L0; reflexivity).
  rewrite (skipn_all2 (n := 8) (skipn 8 (skipn 8 (skipn 8 (firstn 32 s))))) by (rewrite !skipn_length, L0; cbn; lia). change (be_bytes (snd c) []) with (@nil Z).
  rewrite !skipn_skipn'. cbn [Nat.add]. rewrite !firstn_skipn_comm', !firstn_firstn. cbn [Nat.add Nat.min]. reflexivity.
Qed.
