(** * Facts about the event pane *)
From Coq Require Import Ascii SpecFloat DecimalString.
From Verif Require Import Base F32 F32Facts F32Round F64 F64Round Events Tags Lobby ConvertSpec Balance State EventPane EventPaneSpec.
#[local] Open Scope string_scope.
#[local] Open Scope Z_scope.
#[local] Open Scope list_scope.

(** ** The clock *)
Lemma f64_of_int_exact : forall l, 0 < l < 2 ^ 53 -> exists m e, f64_of_int l = S754_finite false m e /\ f64_valid (f64_of_int l) = true /\
  fval64 (f64_of_int l) = l * 2 ^ 1074 /\ digs m + e = Z.log2 l + 1.
Proof.
  intros l Hl. destruct (f64_of_int_round l ltac:(lia)) as [R V].
  assert (F : fval64 (f64_of_int l) = l * 2 ^ 1074).
  { rewrite <- (Z.mul_1_l (fval64 _)). apply (is_round_exact64 (l * 2 ^ 1074) 1 _ l 1074); try lia; exact R. }
  assert (P : 0 < 2 ^ 1074) by (apply Z.pow_pos_nonneg; lia).
  destruct (f64_of_int l) as [s|s| |s m e] eqn:E; cbn [fval64] in F.
  - exfalso. clear - F P Hl. symmetry in F. apply Z.eq_mul_0 in F. lia.
  - exfalso. destruct s; [|].
    + assert (0 < l * 2 ^ 1074) by (apply Z.mul_pos_pos; lia). assert (0 < 2 ^ 2098) by (apply Z.pow_pos_nonneg; lia). lia.
    + assert (l * 2 ^ 1074 < 2 ^ 53 * 2 ^ 1074) by (apply Z.mul_lt_mono_pos_r; lia).
      assert (2 ^ 53 * 2 ^ 1074 <= 2 ^ 2098) by (rewrite <- pow_split by lia; apply Z.pow_le_mono_r; lia). lia.
  - exfalso. symmetry in F. apply Z.eq_mul_0 in F. lia.
  - destruct s.
    { exfalso. assert (0 < l * 2 ^ 1074) by (apply Z.mul_pos_pos; lia). assert (0 <= Z.pos m * 2 ^ (e + 1074)) by (apply Z.mul_nonneg_nonneg; [lia|apply Z.pow_nonneg; lia]). lia. }
    exists m, e. split; [reflexivity|]. split; [exact V|]. split; [cbn [fval64]; exact F|].
    destruct (valid64_bounds _ _ _ V) as (B & D & _). rewrite Z.mul_1_l in F.
    assert (L : Z.log2 (Z.pos m * 2 ^ (e + 1074)) = Z.log2 (l * 2 ^ 1074)) by (rewrite F; reflexivity).
    rewrite !Z.log2_mul_pow2 in L by lia. rewrite digs_log2. lia.
Qed.

Lemma pane_seconds_round : forall l, 0 < l < 2 ^ 43 ->
  2 ^ 53 * (22 * fval64 (pane_seconds l) - l * 2 ^ 1074) <= l * 2 ^ 1074 /\
  2 ^ 53 * (l * 2 ^ 1074 - 22 * fval64 (pane_seconds l)) <= l * 2 ^ 1074.
Proof.
  intros l Hl. destruct (f64_of_int_exact l) as (m & e & E & V & F & D); [lia|].
  destruct (f64_of_int_exact 22) as (m2 & e2 & E2 & V2 & F2 & D2); [lia|].
  unfold pane_seconds. rewrite E, E2 in *.
  destruct (f64_div_round m e m2 e2) as [R _]; [|exact V|exact V2|].
  { rewrite D, D2. change (Z.log2 22) with 4. pose proof (Z.log2_nonneg l). lia. }
  rewrite F, F2 in R. set (r := f64_div _ _) in *. clearbody r. clear - Hl R.
  assert (P : 0 < 2 ^ 1074) by (apply Z.pow_pos_nonneg; lia).
  apply is_round_error64 in R; [| apply Z.mul_pos_pos; lia | |].
  - destruct R as [R1 R2]. set (p := 2 ^ 1074) in *. clearbody p. set (t := 2 ^ 53) in *. assert (0 < t) by reflexivity. clearbody t.
    split; apply (Z.mul_le_mono_pos_r _ _ p); try exact P.
    + replace (t * (22 * fval64 r - l * p) * p) with (t * (22 * p * fval64 r - l * p * p)) by ring. exact R1.
    + replace (t * (l * p - 22 * fval64 r) * p) with (t * (l * p * p - 22 * p * fval64 r)) by ring. exact R2.
  - replace (l * 2 ^ 1074 * 2 ^ 1074) with (2 ^ 1074 * (l * 2 ^ 1074)) by ring. replace (22 * 2 ^ 1074 * 2 ^ 52) with (2 ^ 1074 * (22 * 2 ^ 52)) by ring.
    apply Z.mul_le_mono_nonneg_l; [lia|]. apply Z.le_trans with (1 * 2 ^ 1074); [|apply Z.mul_le_mono_nonneg_r; lia].
    rewrite Z.mul_1_l. apply Z.le_trans with (2 ^ 5 * 2 ^ 52); [lia|]. rewrite <- pow_split by lia. apply Z.pow_le_mono_r; lia.
  - replace (l * 2 ^ 1074 * 2 ^ 1074) with (2 ^ 1074 * (l * 2 ^ 1074)) by ring. replace (22 * 2 ^ 1074 * 2 ^ 2097) with (2 ^ 1074 * (22 * 2 ^ 2097)) by ring.
    apply Z.mul_lt_mono_pos_l; [lia|]. apply Z.lt_le_trans with (2 ^ 43 * 2 ^ 1074); [apply Z.mul_lt_mono_pos_r; lia|].
    apply Z.le_trans with (1 * 2 ^ 2097); [|apply Z.mul_le_mono_nonneg_r; [apply Z.pow_nonneg|]; lia].
    rewrite Z.mul_1_l, <- pow_split by lia. apply Z.pow_le_mono_r; lia.
Qed.

Lemma thousandths_nearest : forall l, 0 <= l < 2 ^ 43 -> nearest (thousandths (pane_seconds l)) (500 * l) 11.
Proof.
  intros l Hl. destruct (Z.eq_dec l 0) as [->|N].
  { unfold nearest. change (pane_seconds 0) with (S754_zero false). unfold thousandths. cbn [fval64 Z.abs Z.mul].
    rewrite <- (Z.mul_0_l (2 ^ 1074)) at 1. rewrite rne_exact by (apply Z.pow_pos_nonneg; lia). reflexivity. }
  destruct (pane_seconds_round l ltac:(lia)) as [A1 A2].
  assert (P : 0 < 2 ^ 1074) by (apply Z.pow_pos_nonneg; lia).
  assert (P53 : 2 ^ 1074 = 2 ^ 53 * 2 ^ 1021) by (rewrite <- pow_split by lia; reflexivity).
  assert (Pp : 0 < 2 ^ 1021) by (apply Z.pow_pos_nonneg; lia).
  unfold thousandths. set (r := fval64 (pane_seconds l)) in *. clearbody r.
  pose proof (rne_near (Z.abs r * 1000) (2 ^ 1074) P) as [B1 B2].
  set (q := rne (Z.abs r * 1000) (2 ^ 1074)) in *. clearbody q. unfold nearest.
  rewrite P53 in *. set (p := 2 ^ 1021) in *. clearbody p. clear P53 P.
  change (2 ^ 53) with 9007199254740992 in *. change (2 ^ 43) with 8796093022208 in *.
  assert (L : l * p < 8796093022208 * p) by (apply Z.mul_lt_mono_pos_r; lia).
  assert (L0 : 0 < l * p) by (apply Z.mul_pos_pos; lia).
  replace (9007199254740992 * p * q) with (9007199254740992 * (q * p)) in * by ring.
  replace (l * (9007199254740992 * p)) with (9007199254740992 * (l * p)) in * by ring.
  assert (R0 : 0 <= r) by lia. rewrite Z.abs_eq in * by lia.
  assert (C1 : (11 * q - 500 * l) * p < 6 * p) by (replace ((11 * q - 500 * l) * p) with (11 * (q * p) - 500 * (l * p)) by ring; lia).
  assert (C2 : - 6 * p < (11 * q - 500 * l) * p) by (replace ((11 * q - 500 * l) * p) with (11 * (q * p) - 500 * (l * p)) by ring; lia).
  apply Z.mul_lt_mono_pos_r in C1; [|exact Pp]. apply Z.mul_lt_mono_pos_r in C2; [|exact Pp]. lia.
Qed.
Lemma nearest_unique : forall q q' n d, nearest q n d -> nearest q' n d -> q = q'.
Proof. unfold nearest. intros q q' n d A B. nia. Qed.
Lemma thousandths_later : forall l l', 0 <= l -> l < l' -> l' < 2 ^ 43 -> thousandths (pane_seconds l) + 44 < thousandths (pane_seconds l').
Proof.
  intros l l' H0 H1 H2. pose proof (thousandths_nearest l ltac:(lia)) as A. pose proof (thousandths_nearest l' ltac:(lia)) as B. unfold nearest in *. lia.
Qed.

Lemma pane_seconds_positive : forall l, 0 <= l < 2 ^ 43 -> show_f64_3 (pane_seconds l) = show_thousandths (thousandths (pane_seconds l)).
Proof.
  intros l Hl. destruct (Z.eq_dec l 0) as [->|N]; [reflexivity|].
  destruct (pane_seconds_round l ltac:(lia)) as [A1 A2].
  assert (P : 0 < 2 ^ 1074) by (apply Z.pow_pos_nonneg; lia). assert (L0 : 0 < l * 2 ^ 1074) by (apply Z.mul_pos_pos; lia).
  assert (L1 : l * 2 ^ 1074 < 2 ^ 43 * 2 ^ 1074) by (apply Z.mul_lt_mono_pos_r; lia).
  assert (L2 : 2 ^ 43 * 2 ^ 1074 < 2 ^ 2098) by (rewrite <- pow_split by lia; apply Z.pow_lt_mono_r; lia).
  destruct (pane_seconds l) as [s|s| |s m e]; cbn [fval64] in *.
  - exfalso. lia.
  - exfalso. set (b := 2 ^ 2098) in *. clearbody b. destruct s; lia.
  - exfalso. lia.
  - destruct s; [|reflexivity]. exfalso. assert (0 <= Z.pos m * 2 ^ (e + 1074)) by (apply Z.mul_nonneg_nonneg; [lia|apply Z.pow_nonneg; lia]). lia.
Qed.

(** ** The text *)
Lemma app_assoc_s : forall a b c, append (append a b) c = append a (append b c).
Proof. induction a as [|x a IH]; intros b c; [reflexivity|]. cbn [append]. rewrite IH. reflexivity. Qed.
Lemma char_len_decimal : forall z, char_len (decimal z) = String.length (decimal z).
Proof.
  intros z. unfold decimal. generalize (N.to_uint (Z.to_N z)). induction u as [|u IH|u IH|u IH|u IH|u IH|u IH|u IH|u IH|u IH|u IH]; [reflexivity|..];
    (change (Datatypes.S (char_len (NilEmpty.string_of_uint u)) = Datatypes.S (String.length (NilEmpty.string_of_uint u))); f_equal; exact IH).
Qed.
Lemma char_len_app : forall a b, char_len (append a b) = (char_len a + char_len b)%nat.
Proof. induction a as [|c a IH]; intros b; [reflexivity|]. cbn [append char_len]. destruct (_ && _); rewrite IH; reflexivity. Qed.
Lemma length_app_s : forall a b, String.length (append a b) = (String.length a + String.length b)%nat.
Proof. induction a as [|c a IH]; intros b; [reflexivity|]. cbn [append String.length]. rewrite IH. reflexivity. Qed.
Lemma copies_repeat : forall n c, copies n c = string_of_list_ascii (repeat c n).
Proof. induction n as [|n IH]; intros c; [reflexivity|]. cbn [copies repeat string_of_list_ascii]. rewrite IH. reflexivity. Qed.
Lemma copies_length : forall n c, String.length (copies n c) = n.
Proof. induction n as [|n IH]; intros c; [reflexivity|]. cbn [copies String.length]. rewrite IH. reflexivity. Qed.
Lemma copies_chars : forall n c, Z_of_ascii c < 128 -> char_len (copies n c) = n.
Proof. induction n as [|n IH]; intros c Hc; [reflexivity|]. cbn [copies char_len]. replace (128 <=? Z_of_ascii c) with false by (symmetry; apply Z.leb_gt; exact Hc). cbn [andb]. rewrite IH by exact Hc. reflexivity. Qed.
Lemma right_align_filled : forall c n s, char_len s = String.length s -> filled c n s (right_align c n s).
Proof.
  intros c n s E. unfold right_align, filled. rewrite E. exists (n - String.length s)%nat. split; [rewrite copies_repeat; reflexivity|].
  destruct (Nat.le_gt_cases n (String.length s)); [left; lia|right]. rewrite length_app_s, copies_length. lia.
Qed.
Lemma seconds_chars : forall n, char_len (show_thousandths n) = String.length (show_thousandths n).
Proof.
  intros n. unfold show_thousandths, right_align. rewrite !char_len_app, !length_app_s, !char_len_decimal, copies_length, copies_chars by (vm_compute; reflexivity). reflexivity.
Qed.
Lemma show_thousandths_text : forall n, seconds_text n (show_thousandths n).
Proof. intros n. exists (right_align "0" 3 (decimal (n mod 1000))). split; [reflexivity|]. apply right_align_filled, char_len_decimal. Qed.
Lemma clock_text_line : forall kind l, 0 <= l < 2 ^ 43 -> clock_line kind (thousandths (pane_seconds l)) l (clock_text kind l).
Proof.
  intros kind l Hl. unfold clock_text. rewrite pane_seconds_positive by exact Hl.
  exists (show_thousandths (thousandths (pane_seconds l))), (right_align " " 10 (show_thousandths (thousandths (pane_seconds l)))), (right_align "0" 8 (decimal l)).
  split; [apply show_thousandths_text|]. split; [apply right_align_filled, seconds_chars|]. split; [apply right_align_filled, char_len_decimal|].
  unfold show_int. replace (l <? 0) with false by (symmetry; apply Z.ltb_ge; lia). reflexivity.
Qed.

Lemma names_unit : forall u us s a b, names us b -> s = append a (append (unit_text u) b) -> names (u :: us) s.
Proof.
  intros u us s a b H ->. cbn [names]. unfold unit_text, right_align.
  exists (append a (copies (8 - char_len (decimal (su_index u))) " ")), b, (8 - char_len (su_name u))%nat. split; [|exact H].
  rewrite !app_assoc_s, !copies_repeat. reflexivity.
Qed.
Lemma append_nil_r : forall s, append s "" = s.
Proof. induction s as [|c s IH]; [reflexivity|]. cbn [append]. rewrite IH. reflexivity. Qed.
Lemma names_skip : forall us a b, names us b -> names us (append a b).
Proof.
  intros [|u us] a b H; [exact Logic.I|]. cbn [names] in *. destruct H as (a' & b' & k & -> & H). exists (append a a'), b', k. split; [|exact H]. rewrite app_assoc_s. reflexivity.
Qed.
Lemma names_here : forall u us b, names us b -> names (u :: us) (append (unit_text u) b).
Proof. intros u us b H. eapply (names_unit u us _ "" b H). reflexivity. Qed.
Lemma names_aligned : forall c n u us b, names us b -> names (u :: us) (append (right_align c n (unit_text u)) b).
Proof. intros c n u us b H. unfold right_align. rewrite app_assoc_s. apply names_skip, names_here, H. Qed.

Lemma ends_skip : forall t a b, ends_with t b -> ends_with t (append a b).
Proof. intros t a b (x & ->). exists (append a x). rewrite app_assoc_s. reflexivity. Qed.
Lemma ends_here : forall t, ends_with t t.
Proof. intros t. exists "". reflexivity. Qed.
Lemma ends_cons : forall t c b, ends_with t b -> ends_with t (String c b).
Proof. intros t c b H. apply (ends_skip t (String c "") b H). Qed.
Lemma ends_unit : forall u b, ends_with (append (su_name u) b) (append (unit_text u) b).
Proof. intros u b. unfold unit_text, right_align. rewrite !app_assoc_s. apply ends_skip, ends_skip, ends_skip, ends_skip, ends_here. Qed.

Lemma hint_lines_told : forall dp dc h, exists body, hint_lines dp dc h = title h :: body /\ Forall2 tells (told dp dc h) body.
Proof.
  intros dp dc h.
  assert (M : forall (us : list sc2_unit) (f : sc2_unit -> list sc2_unit * string) (g : sc2_unit -> string), (forall u, tells (f u) (g u)) -> Forall2 tells (map f us) (map g us)).
  { intros us f g H. induction us as [|u us IH]; cbn [map]; constructor; auto. }
  assert (P : forall u, tells ([u], su_name u) (append "Unit: " (unit_text u))).
  { intros u. split; cbn [fst snd].
    - apply names_skip. rewrite <- (append_nil_r (unit_text u)). apply names_here. exact Logic.I.
    - apply ends_skip. pose proof (ends_unit u "") as E. rewrite !append_nil_r in E. exact E. }
  destruct h as [u c|us|us|us t|[k|] d|us e t|us|]; cbn [hint_lines told title]; eexists; (split; [reflexivity|]).
  - constructor; [|constructor]. split; cbn [fst snd].
    + apply names_skip, names_aligned, names_skip. destruct c as [k|]; [|exact Logic.I]. apply names_here. exact Logic.I.
    + apply ends_skip, ends_skip, ends_skip. destruct c as [k|]; apply ends_skip, ends_here.
  - apply M. intros u. split; cbn [fst snd]; [apply names_skip, names_here; exact Logic.I|]. apply ends_skip, ends_skip, ends_cons, ends_here.
  - apply M. exact P.
  - apply M. intros u. split; cbn [fst snd]; [apply names_skip, names_here, names_skip, names_here; exact Logic.I|]. apply ends_skip, ends_skip, ends_skip, ends_unit.
  - constructor; [|constructor]. unfold right_align at 2. split; cbn [fst snd].
    + apply names_skip, names_aligned, names_skip. rewrite !app_assoc_s. apply names_skip, names_skip, names_here. exact Logic.I.
    + rewrite !app_assoc_s. apply ends_skip, ends_skip, ends_skip, ends_skip, ends_skip, ends_unit.
  - constructor; [|constructor]. split; cbn [fst snd]; [apply names_skip, names_aligned; exact Logic.I|]. apply ends_skip, ends_skip, ends_here.
  - apply M. intros u. split; cbn [fst snd]; [apply names_skip, names_here; exact Logic.I|]. apply ends_skip, ends_skip, ends_cons, ends_here.
  - apply M. exact P.
  - constructor.
Qed.

(** ** The pane *)
Lemma player_line_shown : forall uid n, 0 <= uid -> player_line uid n
  (append "UID[" (append (zero_pad2 uid) (append (right_align " " 20 (match n with Some s => s | None => "unknown" end)) "]"))).
Proof.
  intros uid n H. unfold player_line, zero_pad2. replace (uid <? 0) with false by (symmetry; apply Z.ltb_ge; exact H).
  exists (right_align "0" 2 (decimal uid)), (20 - char_len (match n with Some s => s | None => "unknown" end))%nat. split; [apply right_align_filled, char_len_decimal|].
  unfold right_align at 2. rewrite copies_repeat, app_assoc_s. reflexivity.
Qed.
Lemma event_canvas_shown : forall jt jg ji dp dc i, 0 <= loop_of (it_event i) < 2 ^ 43 ->
  exists ms clock player body, nearest ms (500 * loop_of (it_event i)) 11 /\
    clock_line (match it_event i with ETracker _ _ => "TRCK" | EGame _ _ _ _ => "GAME" end) ms (loop_of (it_event i)) clock /\
    Forall2 tells (told dp dc (it_hint i)) body /\
    (forall l uid n x, it_event i = EGame l uid n x -> 0 <= uid -> player_line uid n player) /\
    event_canvas jt jg ji dp dc (Some i) =
      match it_event i with ETracker _ x => clock :: jt x | EGame _ _ _ x => player :: clock :: jg x end ++ title (it_hint i) :: body ++ ji i.
Proof.
  intros jt jg ji dp dc [e h] Hl. cbn [it_event it_hint] in *. destruct (hint_lines_told dp dc h) as (body & Eb & Hb).
  exists (thousandths (pane_seconds (loop_of e))). destruct e as [l x|l uid n x]; cbn [loop_of] in *.
  - exists (clock_text "TRCK" l), "", body. split; [apply thousandths_nearest, Hl|]. split; [apply clock_text_line, Hl|]. split; [exact Hb|].
    split; [intros; discriminate|]. cbn [event_canvas it_event it_hint event_lines]. rewrite Eb. reflexivity.
  - eexists (clock_text "GAME" l), _, body. split; [apply thousandths_nearest, Hl|]. split; [apply clock_text_line, Hl|]. split; [exact Hb|].
    split; [|cbn [event_canvas it_event it_hint event_lines]; rewrite Eb; reflexivity].
    intros l' uid' n' x' E Hu. injection E as <- <- <- <-. apply player_line_shown, Hu.
Qed.
