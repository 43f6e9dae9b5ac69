(** * The rows of the lobby and init data tables *)
From Coq Require Import Ascii.
From Verif Require Import Base BitProofs Types Utf8 Utf8Facts Events ConvertSpec ConvertFacts Lobby DetailsData DetailsSpec DetailsFacts Rows.
#[local] Open Scope string_scope.
#[local] Open Scope Z_scope.
#[local] Open Scope list_scope.

(** ** Specification *)
(** The text whose characters have the given codes. *)
Definition text_of (cs : list Z) : string := str_of_bytes (utf8_text cs).
(** A cache handle: four bytes extension, two bytes nothing, two bytes region,
    and a digest. *)
Definition handle_extension (l : list Z) : string := text_of (firstn 4 l).
Definition handle_region (l : list Z) : string := text_of (firstn 2 (skipn 6 l)).

(** ** Hexadecimal texts *)
Lemma skipn_In' : forall A n (l : list A) x, In x (skipn n l) -> In x l.
Proof. intros A n l x Hx. rewrite <- (firstn_skipn n l). apply in_or_app. right. exact Hx. Qed.
Lemma firstn_In' : forall A n (l : list A) x, In x (firstn n l) -> In x l.
Proof. intros A n l x Hx. rewrite <- (firstn_skipn n l). apply in_or_app. left. exact Hx. Qed.
Definition dig (d : Z) : Z := if d <? 10 then 48 + d else 87 + d.
Definition hexb (l : list Z) : list Z := flat_map (fun b => [dig (b / 16); dig (b mod 16)]) l.
Lemma digit_value_dig : forall a x, digit_value a = Some x -> Z_of_ascii a = dig x /\ 0 <= x < 16.
Proof.
  intros a x E. unfold digit_value in E. unfold dig. destruct ((48 <=? Z_of_ascii a) && (Z_of_ascii a <=? 57)) eqn:E1.
  - injection E as <-. apply andb_prop in E1 as [A B]. apply Z.leb_le in A, B. split; [|lia]. destruct (Z.ltb_spec (Z_of_ascii a - 48) 10); lia.
  - destruct ((97 <=? Z_of_ascii a) && (Z_of_ascii a <=? 102)) eqn:E2; [|discriminate]. injection E as <-. apply andb_prop in E2 as [A B]. apply Z.leb_le in A, B.
    split; [|lia]. destruct (Z.ltb_spec (Z_of_ascii a - 87) 10); lia.
Qed.
Lemma read_hex_bytes : forall n s l, (String.length s <= n)%nat -> read_hex s = Some l -> bytes_of_str s = hexb l /\ bytes_ok l.
Proof.
  induction n as [|n IH]; intros s l Hn E.
  - destruct s; [|cbn in Hn; lia]. cbn in E. injection E as <-. split; [reflexivity|constructor].
  - destruct s as [|a [|b s]]; cbn [read_hex] in E; [injection E as <-; split; [reflexivity|constructor]|discriminate|].
    destruct (digit_value a) as [x|] eqn:Ea; [|discriminate]. destruct (digit_value b) as [y|] eqn:Eb; [|discriminate]. destruct (read_hex s) as [l'|] eqn:El; [|discriminate].
    assert (El2 : l = 16 * x + y :: l') by congruence. clear E. subst l. apply digit_value_dig in Ea as [Ea Hx]. apply digit_value_dig in Eb as [Eb Hy]. destruct (IH s l') as [A B]; [cbn in Hn; lia|exact El|].
    split; [change (hexb (16 * x + y :: l')) with (dig ((16 * x + y) / 16) :: dig ((16 * x + y) mod 16) :: hexb l'); cbn [bytes_of_str]; rewrite Ea, Eb, A; replace ((16 * x + y) / 16) with x by dlia; replace ((16 * x + y) mod 16) with y by dlia; reflexivity|]. apply bytes_ok_cons. split; [unfold byte_ok; lia|exact B].
Qed.
Lemma hexb_length : forall l, length (hexb l) = (2 * length l)%nat.
Proof. induction l as [|b l IH]; [reflexivity|]. cbn [hexb flat_map app length]. fold (hexb l). rewrite IH. lia. Qed.
Lemma hexb_firstn : forall n l, firstn (2 * n) (hexb l) = hexb (firstn n l).
Proof.
  induction n as [|n IH]; intros [|b l]; try reflexivity. replace (2 * S n)%nat with (S (S (2 * n))) by lia. cbn [hexb flat_map app firstn]. fold (hexb l). fold (hexb (firstn n l)). rewrite IH. reflexivity.
Qed.
Lemma hexb_skipn : forall n l, skipn (2 * n) (hexb l) = hexb (skipn n l).
Proof. induction n as [|n IH]; intros [|b l]; try reflexivity. replace (2 * S n)%nat with (S (S (2 * n))) by lia. cbn [hexb flat_map app skipn]. fold (hexb l). apply IH. Qed.
Lemma dig_range : forall d, 0 <= d < 16 -> 48 <= dig d <= 102.
Proof. intros d Hd. unfold dig. destruct (Z.ltb_spec d 10); lia. Qed.
Lemma hexb_ascii : forall l, bytes_ok l -> Forall (fun b => 48 <= b <= 102) (hexb l).
Proof.
  induction l as [|b l IH]; intros Hl; [constructor|]. apply bytes_ok_cons in Hl as [Hb Hl]. unfold byte_ok in Hb. cbn [hexb flat_map app].
  constructor; [apply dig_range; dlia|]. constructor; [apply dig_range; dlia|exact (IH Hl)].
Qed.
Lemma digit_of_dig : forall d, 0 <= d < 16 -> digit_of (dig d) = Some d.
Proof.
  intros d Hd. assert (Hf : Forall (fun d => digit_of (dig d) = Some d) (map Z.of_nat (seq 0 16))) by (vm_compute; repeat constructor).
  rewrite Forall_forall in Hf. apply Hf. apply in_map_iff. exists (Z.to_nat d). split; [lia|]. apply in_seq. lia.
Qed.
Lemma dig_43 : forall d, 0 <= d < 16 -> (dig d =? 43) = false.
Proof. intros d Hd. apply Z.eqb_neq. pose proof (dig_range d Hd). lia. Qed.
Lemma hex_chars_hexb : forall l, bytes_ok l -> hex_chars (hexb l) = Ok (utf8_text l).
Proof.
  induction l as [|b l IH]; intros Hl; [reflexivity|]. apply bytes_ok_cons in Hl as [Hb Hl]. unfold byte_ok in Hb. cbn [hexb flat_map app hex_chars]. fold (hexb l).
  unfold hex_char. rewrite dig_43, !digit_of_dig by dlia. cbn [obind]. rewrite (IH Hl). cbn [obind]. f_equal. unfold utf8_text. cbn [flat_map]. f_equal.
  replace (16 * (b / 16) + b mod 16) with b by dlia. unfold utf8_char. destruct (Z.ltb_spec b 128), (Z.leb_spec b 0x7f); try lia; [reflexivity|].
  destruct (Z.leb_spec b 0x7ff); [reflexivity|lia].
Qed.
Lemma split_at_ascii : forall n l, (n <= length l)%nat -> Forall (fun b => 48 <= b <= 102) l -> split_at n l = Ok (firstn n l, skipn n l).
Proof.
  intros n l Hn Hl. unfold split_at, boundary. destruct (Nat.eqb_spec n (length l)); [reflexivity|]. destruct (nth_error l n) as [b|] eqn:E.
  - apply nth_error_In in E. rewrite Forall_forall in Hl. apply Hl in E. destruct (Z.leb_spec 128 b); [lia|]. reflexivity.
  - apply nth_error_None in E. lia.
Qed.
Lemma split_at_past : forall n l, (length l < n)%nat -> split_at n l = Panic.
Proof.
  intros n l Hn. unfold split_at, boundary. destruct (Nat.eqb_spec n (length l)); [lia|]. destruct (nth_error l n) as [b|] eqn:E; [|reflexivity].
  assert (n < length l)%nat by (apply nth_error_Some; congruence). lia.
Qed.
Lemma str_hexb : forall l, str_of_bytes (hexb l) = hex l.
Proof. intros l. rewrite hex_eq. induction l as [|b l IH]; [reflexivity|]. change (str_of_bytes (hexb (b :: l))) with (append (hex2 b) (str_of_bytes (hexb l))). rewrite IH. reflexivity. Qed.
Lemma split_handle_ok : forall h l, read_hex h = Some l -> (8 <= length l)%nat ->
  split_handle h = Ok (handle_extension l, handle_region l, hex (skipn 8 l)).
Proof.
  intros h l E Hl. destruct (read_hex_bytes _ _ _ (Nat.le_refl _) E) as [Eb Hb]. unfold split_handle. rewrite Eb. pose proof (hexb_ascii l Hb) as Ha.
  assert (Hs : forall n, bytes_ok (skipn n l)) by (intros n; apply Forall_forall; intros x Hx; unfold bytes_ok in Hb; rewrite Forall_forall in Hb; apply Hb; eapply skipn_In'; exact Hx).
  assert (Hf : forall n k, bytes_ok (firstn n (skipn k l))) by (intros n k; apply Forall_forall; intros x Hx; pose proof (Hs k) as Hk; unfold bytes_ok in Hk; rewrite Forall_forall in Hk; apply Hk; eapply firstn_In'; exact Hx).
  rewrite (split_at_ascii 8) by (rewrite ?hexb_length; auto; lia). cbn [obind]. rewrite (hexb_firstn 4), (hexb_skipn 4), hex_chars_hexb by (apply (Hf 4%nat 0%nat)). cbn [obind].
  rewrite (split_at_ascii 4) by (rewrite ?hexb_length, ?skipn_length; try lia; apply hexb_ascii, Hs). cbn [obind]. rewrite (hexb_skipn 2), skipn_skipn'.
  rewrite (split_at_ascii 4) by (rewrite ?hexb_length, ?skipn_length; try lia; apply hexb_ascii, Hs). cbn [obind]. rewrite (hexb_firstn 2), (hexb_skipn 2), hex_chars_hexb by apply Hf. cbn [obind].
  rewrite str_hexb, skipn_skipn'. reflexivity.
Qed.

(** ** The loop *)
Definition first_of {A} (x : option A) (l : list A) : option A := match x with Some _ => x | None => match l with a :: _ => Some a | [] => None end end.
Lemma append_assoc' : forall a b c, append (append a b) c = append a (append b c).
Proof. induction a as [|x a IH]; intros b c; [reflexivity|]. cbn [append]. rewrite IH. reflexivity. Qed.
Fixpoint with_commas (l : list string) : string := match l with [] => "" | h :: l' => append h (String "," (with_commas l')) end.
Lemma handles_loop_ok : forall hs ls, Forall2 (fun h l => read_hex h = Some l /\ (8 <= length l)%nat) hs ls -> forall ext region acc,
  handles_loop ext region acc hs = Ok (first_of ext (map handle_extension ls), first_of region (map handle_region ls), append acc (with_commas (map (fun l => hex (skipn 8 l)) ls))).
Proof.
  induction 1 as [|h l hs ls [E Hl] _ IH]; intros ext region acc; cbn [handles_loop map with_commas].
  - rewrite append_nil. destruct ext, region; reflexivity.
  - rewrite (split_handle_ok h l E Hl). cbn [obind]. rewrite IH. rewrite !append_assoc'. destruct ext, region; reflexivity.
Qed.
Lemma pop_cons : forall a s, s <> "" -> pop (String a s) = String a (pop s).
Proof. intros a [|b s] Hs; [congruence|reflexivity]. Qed.
Lemma pop_append : forall a b, b <> "" -> pop (append a b) = append a (pop b).
Proof.
  induction a as [|x a IH]; intros b Hb; [reflexivity|]. cbn [append]. rewrite pop_cons; [rewrite IH by exact Hb; reflexivity|]. destruct a; cbn [append]; [exact Hb|discriminate].
Qed.
Lemma pop_commas : forall l, pop (with_commas l) = String.concat "," l.
Proof.
  induction l as [|h l IH]; [reflexivity|]. cbn [with_commas]. rewrite pop_append by discriminate. destruct l as [|h' l].
  - cbn. apply append_nil.
  - rewrite pop_cons.
    + rewrite IH. reflexivity.
    + cbn [with_commas]. destruct h'; discriminate.
Qed.
(** A row of the lobby table and the lobby entry it comes from, its handles
    being the texts of the byte strings [ls]. *)
Definition lobby_row_shown (x : lobby_details) (ls : list (list Z)) (r : lobby_row) : Prop :=
  let p := ld_player x in
  lr_name r = pd_name p /\ lr_toon r = pd_toon p /\ lr_race r = pd_race p /\ lr_color r = pd_color p /\ lr_control r = pd_control p /\ lr_team r = pd_team p /\
  lr_observe r = pd_observe p /\ lr_result r = pd_result p /\ lr_slot r = pd_slot p /\ lr_hero r = pd_hero p /\
  lr_title r = ld_title x /\ lr_blizzard r = gd_is_blizzard (ld_description x) /\ lr_time_utc r = ld_time_utc x /\ lr_time_offset r = ld_time_offset x /\
  lr_user r = ls_user_id (ld_slot x) /\ lr_slot_observe r = ls_observe (ld_slot x) /\
  lr_map_x r = gd_map_x (ld_description x) /\ lr_map_y r = gd_map_y (ld_description x) /\
  lr_region r = hd_error (map handle_region ls) /\ lr_extension r = hd_error (map handle_extension ls) /\
  (exists digests, Forall2 (fun s l => read_hex s = Some (skipn 8 l)) digests ls /\ lr_handles r = String.concat "," digests) /\
  lr_sha256 r = ld_sha256 x /\ lr_file r = ld_file x /\ lr_fs r = ld_fs_id x /\ lr_datetime r = ld_datetime x.
Lemma Forall2_map_l : forall A B (f : B -> A) (R : A -> B -> Prop) l, Forall (fun b => R (f b) b) l -> Forall2 R (map f l) l.
Proof. intros A B f R l. induction 1; constructor; assumption. Qed.
Lemma lobby_row_ok : forall x ls, Forall2 (fun h l => read_hex h = Some l) (ld_handles x) ls -> Forall (fun l => (8 <= length l)%nat) ls ->
  exists r, lobby_row_of x = Ok r /\ lobby_row_shown x ls r.
Proof.
  intros x ls F Hl. assert (F2 : Forall2 (fun h l => read_hex h = Some l /\ (8 <= length l)%nat) (ld_handles x) ls).
  { revert Hl. induction F as [|h l hs ls E F IH]; intros Hl; [constructor|]. inversion Hl; subst. constructor; [split; assumption|auto]. }
  assert (Hb : Forall bytes_ok ls). { clear -F. induction F as [|h l hs ls E F IH]; constructor; [eapply read_hex_bytes; [apply Nat.le_refl|exact E]|exact IH]. }
  unfold lobby_row_of. rewrite (handles_loop_ok _ _ F2). cbn [obind]. eexists. split; [reflexivity|]. unfold lobby_row_shown. cbv zeta.
  repeat match goal with |- _ = _ /\ _ => split; [reflexivity|] end. split; [|repeat split].
  exists (map (fun l => hex (skipn 8 l)) ls). split.
  - apply Forall2_map_l. eapply Forall_impl; [|exact Hb]. intros l Hx. apply read_hex_hex. apply Forall_forall. intros z Hz. unfold bytes_ok in Hx. rewrite Forall_forall in Hx. apply Hx. eapply skipn_In'. exact Hz.
  - cbn [lr_handles append]. apply pop_commas.
Qed.
(** A shorter handle. *)
Lemma split_handle_short : forall h l, read_hex h = Some l -> (length l < 8)%nat -> split_handle h = Panic.
Proof.
  intros h l E Hl. destruct (read_hex_bytes _ _ _ (Nat.le_refl _) E) as [Eb Hb]. unfold split_handle. rewrite Eb. pose proof (hexb_ascii l Hb) as Ha.
  destruct (Nat.le_gt_cases 4 (length l)) as [H4|H4]; [|rewrite split_at_past by (rewrite hexb_length; lia); reflexivity].
  assert (Hs : forall n, bytes_ok (skipn n l)) by (intros n; apply Forall_forall; intros x Hx; unfold bytes_ok in Hb; rewrite Forall_forall in Hb; apply Hb; eapply skipn_In'; exact Hx).
  assert (Hf : bytes_ok (firstn 4 l)) by (apply Forall_forall; intros x Hx; unfold bytes_ok in Hb; rewrite Forall_forall in Hb; apply Hb; eapply firstn_In'; exact Hx).
  rewrite (split_at_ascii 8) by (rewrite ?hexb_length; auto; lia). cbn [obind]. rewrite (hexb_firstn 4), (hexb_skipn 4), hex_chars_hexb by exact Hf. cbn [obind].
  destruct (Nat.le_gt_cases 6 (length l)) as [H6|H6]; [|rewrite split_at_past by (rewrite hexb_length, skipn_length; lia); reflexivity].
  rewrite (split_at_ascii 4) by (rewrite ?hexb_length, ?skipn_length; try lia; apply hexb_ascii, Hs). cbn [obind]. rewrite (hexb_skipn 2), skipn_skipn'.
  rewrite split_at_past by (rewrite hexb_length, skipn_length; lia). reflexivity.
Qed.
Lemma handles_loop_short : forall hs ls, Forall2 (fun h l => read_hex h = Some l) hs ls -> Exists (fun l => (length l < 8)%nat) ls -> forall ext region acc, handles_loop ext region acc hs = Panic.
Proof.
  induction 1 as [|h l hs ls E F IH]; intros He ext region acc; [inversion He|]. cbn [handles_loop]. destruct (Nat.le_gt_cases 8 (length l)) as [H8|H8].
  - rewrite (split_handle_ok h l E H8). cbn [obind]. apply IH. inversion He; subst; [lia|assumption].
  - rewrite (split_handle_short h l E H8). reflexivity.
Qed.
Lemma lobby_row_short : forall x ls, Forall2 (fun h l => read_hex h = Some l) (ld_handles x) ls -> Exists (fun l => (length l < 8)%nat) ls -> lobby_row_of x = Panic.
Proof. intros x ls F He. unfold lobby_row_of. rewrite (handles_loop_short _ _ F He). reflexivity. Qed.

(** ** Init data *)
Definition user_row_shown (x : full_init) (i : nat) (u : user_data) (r : user_row) : Prop :=
  vr_fs r = xi_fs_id x /\ vr_sha256 r = xi_sha256 x /\ vr_file r = xi_file_name x /\ vr_index r = Z.of_nat i /\ vr_name r = ud_name u /\
  (ud_clan_tag u = Some (vr_clan r) \/ ud_clan_tag u = None /\ vr_clan r = "") /\ vr_rating r = ud_scaled_rating u.
Lemma user_rows_nth : forall x l n i, nth_error (user_rows_from n x l) i = option_map (fun u => mk_user_row (xi_fs_id x) (xi_sha256 x) (xi_file_name x) (as_u32 (Z.of_nat (n + i))) (ud_name u)
      (match ud_clan_tag u with Some s => s | None => "" end) (ud_scaled_rating u)) (nth_error l i).
Proof.
  intros x l. induction l as [|u l IH]; intros n i; [destruct i; reflexivity|]. destruct i as [|i]; cbn [user_rows_from nth_error option_map]; [rewrite Nat.add_0_r; reflexivity|].
  rewrite IH. replace (S n + i)%nat with (n + S i)%nat by lia. reflexivity.
Qed.
Lemma user_rows_ok : forall x, (Z.of_nat (length (sy_user_initial_data (xi_sync x))) <= 2 ^ 32) ->
  length (user_rows_from 0 x (sy_user_initial_data (xi_sync x))) = length (sy_user_initial_data (xi_sync x)) /\
  forall i u, nth_error (sy_user_initial_data (xi_sync x)) i = Some u ->
    exists r, nth_error (user_rows_from 0 x (sy_user_initial_data (xi_sync x))) i = Some r /\ user_row_shown x i u r.
Proof.
  intros x Hl. generalize dependent (sy_user_initial_data (xi_sync x)). intros l Hl. split.
  - clear Hl. generalize 0%nat. induction l as [|u l IH]; intros n; [reflexivity|]. cbn [user_rows_from length]. rewrite IH. reflexivity.
  - intros i u E. rewrite user_rows_nth, E. cbn [option_map]. eexists. split; [reflexivity|]. assert (Hi : (i < length l)%nat) by (apply nth_error_Some; congruence).
    unfold user_row_shown. cbn [vr_fs vr_sha256 vr_file vr_index vr_name vr_clan vr_rating Nat.add]. repeat (split; [reflexivity|]).
    split; [unfold as_u32, two32; rewrite Z.mod_small; [reflexivity|]; lia|]. split; [reflexivity|]. split; [|reflexivity]. destruct (ud_clan_tag u); [left; reflexivity|right; split; reflexivity].
Qed.
