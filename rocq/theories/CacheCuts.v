(** * Map files that are damaged or cut off

    A parser that accepts a file accepts it with anything behind, as the same
    value; so no file is accepted without its end. *)
From Verif Require Import Base Utf8 CacheFiles CacheSpec CacheFacts.
#[local] Open Scope string_scope.
#[local] Open Scope Z_scope.
#[local] Open Scope list_scope.

Definition extends {A} (f : list Z -> outcome (list Z * A)) : Prop := forall p s r a, f p = Ok (r, a) -> f (p ++ s) = Ok (r ++ s, a).

Lemma tag_ext : forall t p s r, p_tag t p = Ok r -> p_tag t (p ++ s) = Ok (r ++ s).
Proof.
  induction t as [|a t IH]; intros p s r E; [cbn in E; injection E as <-; reflexivity|].
  destruct p as [|b p]; [discriminate|]. cbn [p_tag app] in *. destruct (a =? b); [|discriminate]. now apply IH.
Qed.
Lemma take_ext : forall n, extends (p_take n).
Proof.
  intros n p s r a E. unfold p_take in *. destruct (Nat.leb_spec n (length p)) as [H|H]; [|discriminate]. injection E as <- <-.
  rewrite app_length. destruct (Nat.leb_spec n (length p + length s)); [|lia]. rewrite skipn_app, firstn_app.
  replace (n - length p)%nat with 0%nat by lia. now rewrite skipn_O, firstn_O, app_nil_r.
Qed.
Lemma i32_ext : extends p_i32.
Proof. intros p s r a E. unfold p_i32 in *. apply obind_ok in E as ([r' b] & E1 & E2). injection E2 as <- <-. rewrite (take_ext _ _ s _ _ E1). reflexivity. Qed.
Lemma u16_ext : extends p_u16.
Proof. intros p s r a E. unfold p_u16 in *. apply obind_ok in E as ([r' b] & E1 & E2). injection E2 as <- <-. rewrite (take_ext _ _ s _ _ E1). reflexivity. Qed.
Lemma while_ext : forall f p s r t, p_while f p = (r, t) -> r <> [] -> p_while f (p ++ s) = (r ++ s, t).
Proof.
  induction p as [|b p IH]; intros s r t E H; cbn [p_while app] in *; [injection E as <- <-; now destruct H|].
  destruct (f b); [|injection E as <- <-; reflexivity]. destruct (p_while f p) as [r' t'] eqn:E'. injection E as <- <-. now rewrite (IH s r' t' eq_refl H).
Qed.
Lemma cstring_ext : extends p_cstring.
Proof.
  intros p s r a E. unfold p_cstring in *. destruct (p_while _ p) as [r' t] eqn:Ew. apply obind_ok in E as ([r2 b] & E1 & E2). injection E2 as <- <-.
  rewrite (while_ext _ _ s _ _ Ew); [|intros ->; discriminate]. rewrite (take_ext _ _ s _ _ E1). reflexivity.
Qed.

Ltac ext_rw s K := first [rewrite (tag_ext _ _ s _ K) | rewrite (i32_ext _ s _ _ K) | rewrite (u16_ext _ s _ _ K) | rewrite (take_ext _ _ s _ _ K) | rewrite (cstring_ext _ s _ _ K)].
Ltac ext_step s := match goal with
  | E : obind _ _ = Ok _ |- _ => let K := fresh "K" in apply obind_ok in E as ([? ?] & K & E); ext_rw s K; cbn [obind]
  | E : obind _ _ = Ok _ |- _ => let K := fresh "K" in apply obind_ok in E as (? & K & E); ext_rw s K; cbn [obind]
  | E : (if ?b then _ else _) = Ok _ |- _ => destruct b; [discriminate E|]
  end.
Lemma map_info_ext : extends parse_map_info.
Proof.
  intros p s r m E. unfold parse_map_info in *. do 2 ext_step s. apply obind_ok in E as (tl & K1 & E).
  match goal with |- obind ?c _ = _ => assert (H : c = Ok (tl ++ s)) end.
  { match goal with |- (if ?b then _ else _) = _ => destruct b end; [|injection K1 as <-; reflexivity]. ext_step s. now injection K1 as <-. }
  rewrite H. clear H K1. cbn [obind]. do 4 ext_step s.
  match type of E with context [p_while ?f ?l] => destruct (p_while f l) as [r' t] eqn:Ew end. rewrite (while_ext _ _ s _ _ Ew).
  2: { intros ->. discriminate. }
  repeat ext_step s. now injection E as <- <-.
Qed.
Lemma height_loop_ext : forall n p s r d d', height_loop n p d = Ok (r, d') -> height_loop n (p ++ s) d = Ok (r ++ s, d').
Proof.
  induction n as [|n IH]; intros p s r d d' E; cbn [height_loop] in *; [injection E as <- <-; reflexivity|]. ext_step s.
  destruct (nth_error l0 4) as [b|]; [|discriminate]. destruct (4 <? b); [discriminate|]. now apply IH.
Qed.
Lemma height_map_ext : forall bd m, extends (fun l => parse_height_map bd l m).
Proof.
  intros bd m p s r a E. unfold parse_height_map in *. do 4 ext_step s. destruct (terrain_dim_map bd m) as [dims|e|]; try discriminate. cbn [obind] in *.
  do 2 ext_step s. destruct (ovf_i32 bd (z * z0)) as [area|e|]; try discriminate. cbn [obind] in *. destruct (ovf_i32 bd (area * 6)) as [size|e|]; try discriminate. cbn [obind] in *.
  destruct (Z.ltb_spec (Z.of_nat (length l1)) (as_u64 size)) as [|Hl]; [discriminate|]. rewrite app_length. destruct (Z.ltb_spec (Z.of_nat (length l1 + length s)) (as_u64 size)); [lia|].
  apply obind_ok in E as ([tl d] & KL & E). injection E as <- <-. rewrite (height_loop_ext _ _ s _ _ _ KL). reflexivity.
Qed.

(** The loop over the fields with what it leaves. *)
Fixpoint fields_left (n : nat) (tail : list Z) (h : document_header) : outcome (list Z * document_header) :=
  match n with
  | O => Ok (tail, h)
  | Datatypes.S n' =>
      do (tail, size) <- p_u16 tail;
      do (tail, name) <- p_take (Z.to_nat size) tail;
      do tail <- p_tag [83; 85; 110; 101] tail;
      do (tail, size) <- p_u16 tail;
      do (tail, value) <- p_take (Z.to_nat size) tail;
      fields_left n' tail (set_field h (from_utf8_lossy name) (from_utf8_lossy value))
  end.
Lemma fields_left_loop : forall n l h, field_loop n l h = do (_, h') <- fields_left n l h; Ok h'.
Proof.
  induction n as [|n IH]; intros l h; cbn [field_loop fields_left]; [reflexivity|].
  destruct (p_u16 l) as [[l1 z]|e|]; cbn [obind]; try reflexivity. destruct (p_take _ l1) as [[l2 n1]|e|]; cbn [obind]; try reflexivity.
  destruct (p_tag _ l2) as [l3|e|]; cbn [obind]; try reflexivity. destruct (p_u16 l3) as [[l4 z']|e|]; cbn [obind]; try reflexivity.
  destruct (p_take _ l4) as [[l5 v]|e|]; cbn [obind]; try reflexivity. apply IH.
Qed.
Lemma fields_left_ext : forall n p s r h h', fields_left n p h = Ok (r, h') -> fields_left n (p ++ s) h = Ok (r ++ s, h').
Proof.
  induction n as [|n IH]; intros p s r h h' E; cbn [fields_left] in *; [injection E as <- <-; reflexivity|]. do 5 ext_step s. now apply IH.
Qed.
(** [DocumentHeader::parse], with what it has left unread as remainder. *)
Definition document_left (input : list Z) : outcome (list Z * document_header) :=
  do tail <- p_tag [72; 50; 67; 83] input;
  do (tail, _) <- p_i32 tail;
  do (tail, _) <- p_take 4 tail;
  do (tail, _) <- p_take 4 tail;
  do (tail, x1) <- p_i32 tail;
  do (tail, y1) <- p_i32 tail;
  do (tail, _) <- p_take 4 tail;
  do (tail, e1) <- p_i32 tail;
  do (tail, e2) <- p_i32 tail;
  do (tail, _) <- p_take 12 tail;
  let (tail, mod_bytes) := p_while (fun x => negb (x =? 0)) tail in
  let mod_info := from_utf8_lossy mod_bytes in
  if negb (mod_info =? void_mod)%string then Err (EOther "Only parsed Void typed.") else
  do (tail, _) <- p_take 1 tail;
  do (tail, count) <- p_u16 tail;
  do new_tail <- p_tag [0; 0] tail;
  fields_left (Z.to_nat count) new_tail (mk_document x1 y1 e1 e2 mod_info "" "" "").
Lemma document_left_same : forall p, match parse_document p with
  | Ok (_, h) => exists left, document_left p = Ok (left, h)
  | Err e => document_left p = Err e
  | Panic => document_left p = Panic
  end.
Proof.
  intros p. unfold parse_document, document_left.
  repeat match goal with
  | |- match obind ?c _ with _ => _ end => lazymatch c with field_loop _ _ _ => fail | _ => destruct c as [[? ?]|e|]; cbn [obind]; try reflexivity end
  | |- match obind ?c _ with _ => _ end => lazymatch c with field_loop _ _ _ => fail | _ => destruct c as [?|e|]; cbn [obind]; try reflexivity end
  | |- context [p_while ?f ?l] => destruct (p_while f l)
  | |- context [if negb ?b then _ else _] => destruct b; cbn [negb]; try reflexivity
  end.
  rewrite fields_left_loop. destruct (fields_left _ _ _) as [[left h]|e|]; cbn [obind]; [exists left; reflexivity|reflexivity..].
Qed.
Lemma document_left_ext : extends document_left.
Proof.
  intros p s r h E. unfold document_left in *. do 10 ext_step s. match type of E with context [p_while ?f ?l] => destruct (p_while f l) as [r' t] eqn:Ew end. rewrite (while_ext _ _ s _ _ Ew).
  2: { intros ->. repeat parse_step. discriminate. }
  do 4 ext_step s. exact (fields_left_ext _ _ s _ _ _ E).
Qed.
Lemma fields_left_app : forall fields rest h, Forall field_ok fields -> exists h', fields_left (length fields) (flat_map field_bytes fields ++ rest) h = Ok (rest, h').
Proof.
  induction fields as [|f fields IH]; intros rest h Hf; [exists h; reflexivity|]. inversion Hf as [|x y [Hn Hv] Hfs]; subst. cbn [length fields_left flat_map]. unfold field_bytes at 1. rewrite <- !app_assoc.
  rewrite p_u16_app by lia. cbn [obind]. rewrite Nat2Z.id, p_take_app by reflexivity. cbn [obind]. change (ascii_bytes "SUne") with [83; 85; 110; 101]. rewrite p_tag_app. cbn [obind].
  rewrite p_u16_app by lia. cbn [obind]. rewrite Nat2Z.id, p_take_app by reflexivity. cbn [obind]. apply IH. exact Hfs.
Qed.
Lemma document_left_reads : forall f rest, doc_file_ok f -> exists h, document_left (doc_head f ++ doc_body f ++ rest) = Ok (rest, h).
Proof.
  intros f rest (Hv & Hx & Hy & H1 & H2 & L1 & L2 & L3 & L12 & Ln & Hf). unfold doc_head, doc_body, document_left. rewrite <- !app_assoc.
  change (ascii_bytes "H2CS") with [72; 50; 67; 83]. rewrite p_tag_app. cbn [obind]. rewrite p_i32_app by assumption. cbn [obind]. rewrite p_take_app by assumption. cbn [obind]. rewrite p_take_app by assumption. cbn [obind].
  rewrite p_i32_app by assumption. cbn [obind]. rewrite p_i32_app by assumption. cbn [obind]. rewrite p_take_app by assumption. cbn [obind]. rewrite p_i32_app by assumption. cbn [obind]. rewrite p_i32_app by assumption. cbn [obind].
  rewrite p_take_app by assumption. cbn [obind]. set (m := ascii_bytes "bnet:Void (Mod)/0.0/999,file:Mods/Void.SC2Mod"). cbn [app].
  rewrite p_while_app; [|apply Forall_forall; intros x Hin; assert (K : forallb (fun x => negb (x =? 0)) m = true) by reflexivity; rewrite forallb_forall in K; exact (K x Hin)|reflexivity].
  assert (Em : from_utf8_lossy m = void_mod) by reflexivity. rewrite Em. cbn [negb String.eqb].
  replace (void_mod =? void_mod)%string with true by (symmetry; apply String.eqb_refl). cbn [negb]. change (0 :: le16 ?z ++ ?r) with ([0] ++ le16 z ++ r). rewrite p_take_app by reflexivity. cbn [obind].
  rewrite p_u16_app by lia. cbn [obind]. change (0 :: 0 :: ?r) with ([0; 0] ++ r). rewrite p_tag_app. cbn [obind]. rewrite Nat2Z.id. apply fields_left_app. exact Hf.
Qed.

(** ** No file stops the program *)
Lemma obind_calm : forall A B (c : outcome A) (f : A -> outcome B), c <> Panic -> (forall a, c = Ok a -> f a <> Panic) -> obind c f <> Panic.
Proof. intros A B c f Hc Hf. destruct c as [a|e|]; cbn [obind]; [apply Hf; reflexivity|discriminate|contradiction]. Qed.
Lemma tag_calm : forall t l, p_tag t l <> Panic.
Proof. induction t as [|a t IH]; intros l; [discriminate|]. destruct l as [|b l]; cbn [p_tag]; [discriminate|]. destruct (a =? b); [apply IH|discriminate]. Qed.
Lemma take_calm : forall n l, p_take n l <> Panic.
Proof. intros. unfold p_take. destruct (_ <=? _)%nat; discriminate. Qed.
Lemma i32_calm : forall l, p_i32 l <> Panic.
Proof. intros. unfold p_i32. apply obind_calm; [apply take_calm|]. intros [? ?] _. discriminate. Qed.
Lemma u16_calm : forall l, p_u16 l <> Panic.
Proof. intros. unfold p_u16. apply obind_calm; [apply take_calm|]. intros [? ?] _. discriminate. Qed.
Lemma cstring_calm : forall l, p_cstring l <> Panic.
Proof. intros. unfold p_cstring. destruct (p_while _ l). apply obind_calm; [apply take_calm|]. intros [? ?] _. discriminate. Qed.
Ltac calm := repeat match goal with
  | |- obind _ _ <> Panic => apply obind_calm
  | |- p_tag _ _ <> Panic => apply tag_calm
  | |- p_take _ _ <> Panic => apply take_calm
  | |- p_i32 _ <> Panic => apply i32_calm
  | |- p_u16 _ <> Panic => apply u16_calm
  | |- p_cstring _ <> Panic => apply cstring_calm
  | |- forall a, p_tag _ _ = _ -> _ => intros ? _
  | |- forall a : list Z, _ -> _ => intros ? _
  | |- forall a, _ = _ -> _ => intros [? ?] _
  | |- (let (_, _) := ?x in _) <> Panic => destruct x
  | |- (if ?b then _ else _) <> Panic => destruct b
  | |- Ok _ <> Panic => discriminate
  | |- Err _ <> Panic => discriminate
  end.
Lemma map_info_calm : forall l, parse_map_info l <> Panic.
Proof. intros l. unfold parse_map_info. calm. Qed.
Lemma field_loop_calm : forall n l h, field_loop n l h <> Panic.
Proof. induction n as [|n IH]; intros l h; cbn [field_loop]; [discriminate|]. calm. apply IH. Qed.
Lemma document_calm : forall l, parse_document l <> Panic.
Proof.
  intros l. unfold parse_document. calm. all: try (intros ? _; discriminate). apply field_loop_calm.
Qed.
Lemma height_loop_calm : forall n l d, height_loop n l d <> Panic.
Proof.
  induction n as [|n IH]; intros l d; cbn [height_loop]; [discriminate|]. apply obind_calm; [apply take_calm|]. intros [t u] E.
  assert (L : length u = 6%nat).
  { unfold p_take in E. destruct (Nat.leb_spec 6 (length l)); [|discriminate]. assert (u = firstn 6 l) as -> by congruence. rewrite firstn_length. lia. }
  destruct (nth_error u 4) as [b|] eqn:En; [|apply nth_error_None in En; lia]. destruct (4 <? b); [discriminate|apply IH].
Qed.
Lemma height_map_calm : forall bd l m, (bd = Checked -> -1 <= mi_width m <= 256 /\ -1 <= mi_height m <= 256) -> parse_height_map bd l m <> Panic.
Proof.
  intros bd l m Hm. unfold parse_height_map. apply obind_calm; [apply tag_calm|]. intros l1 _. apply obind_calm; [apply tag_calm|]. intros l2 _.
  apply obind_calm; [apply i32_calm|]. intros [l3 w] _. apply obind_calm; [apply i32_calm|]. intros [l4 h] _.
  assert (Ho : forall z, bd = Wrapping \/ is_i32 z -> ovf_i32 bd z <> Panic).
  { intros z [-> | Hz]; [|rewrite ovf_i32_in by exact Hz; discriminate]. unfold ovf_i32. destruct (in_i32 z); discriminate. }
  assert (Hb : bd = Wrapping \/ (-1 <= mi_width m <= 256 /\ -1 <= mi_height m <= 256)) by (destruct bd; [right; apply Hm; reflexivity|left; reflexivity]).
  apply obind_calm.
  { unfold terrain_dim_map, pair32. apply obind_calm; [apply Ho; unfold is_i32; destruct Hb; [left; assumption|right; lia]|]. intros a _. apply obind_calm; [apply Ho; unfold is_i32; destruct Hb; [left; assumption|right; lia]|]. intros b _. discriminate. }
  intros [dw dh] Ed. destruct (negb _) eqn:En; [discriminate|]. apply negb_false_iff, andb_true_iff in En as [Ew Eh]. apply Z.eqb_eq in Ew, Eh. cbn [fst snd] in Ew, Eh. subst w h.
  assert (Hr : bd = Wrapping \/ (0 <= dw <= 257 /\ 0 <= dh <= 257)).
  { destruct Hb as [Hb|Hb]; [left; exact Hb|right]. unfold terrain_dim_map in Ed. rewrite pair32_in in Ed by (unfold is_i32; lia). injection Ed as <- <-. lia. }
  apply obind_calm; [apply take_calm|]. intros [l5 u] _.
  apply obind_calm; [apply Ho; destruct Hr as [Hr|Hr]; [left; exact Hr|right; unfold is_i32; nia]|]. intros area Ea.
  apply obind_calm; [apply Ho; destruct Hr as [Hr|Hr]; [left; exact Hr|right; unfold is_i32; rewrite ovf_i32_in in Ea by (unfold is_i32; nia); injection Ea as <-; nia]|]. intros size _.
  destruct (_ <? _); [discriminate|]. rewrite Ea. cbn [obind]. apply obind_calm; [apply height_loop_calm|]. intros [? ?] _. discriminate.
Qed.

(** ** No file is accepted without its end *)
Lemma cut_refused : forall A (f : list Z -> outcome (list Z * A)), extends f -> (forall l, f l <> Panic) ->
  forall used rest a p q, f (used ++ rest) = Ok (rest, a) -> used = p ++ q -> q <> [] -> exists e, f p = Err e.
Proof.
  intros A f He Hp used rest a p q E -> Hq. destruct (f p) as [[r b]|e|] eqn:Ep; [|exists e; reflexivity|destruct (Hp p Ep)].
  exfalso. pose proof (He p (q ++ rest) r b Ep) as E'. rewrite app_assoc in E'. rewrite E in E'.
  assert (L : rest = r ++ q ++ rest) by congruence. apply (f_equal (@length Z)) in L. rewrite !app_length in L. destruct q; [contradiction|cbn [length] in L; lia].
Qed.
Lemma map_info_suffix : forall l r m, parse_map_info l = Ok (r, m) -> exists used, l = used ++ r.
Proof.
  assert (Htag : forall t l r, p_tag t l = Ok r -> exists u, l = u ++ r).
  { induction t as [|a t IH]; intros l r E; [cbn in E; injection E as <-; exists []; reflexivity|]. destruct l as [|b l]; [discriminate|]. cbn [p_tag] in E. destruct (a =? b); [|discriminate].
    destruct (IH _ _ E) as [u ->]. exists (b :: u). reflexivity. }
  assert (Htk : forall n l r v, p_take n l = Ok (r, v) -> exists u, l = u ++ r).
  { intros n l r v E. unfold p_take in E. destruct (_ <=? _)%nat; [|discriminate]. injection E as <- <-. exists (firstn n l). symmetry. apply firstn_skipn. }
  assert (Hi : forall l r v, p_i32 l = Ok (r, v) -> exists u, l = u ++ r).
  { intros l r v E. unfold p_i32 in E. apply obind_ok in E as ([r' b] & E1 & E2). injection E2 as <- <-. exact (Htk _ _ _ _ E1). }
  assert (Hw : forall f l, exists u, l = u ++ fst (p_while f l)).
  { intros f. induction l as [|b l [u IH]]; [exists []; reflexivity|]. cbn [p_while]. destruct (f b); [|exists []; reflexivity]. destruct (p_while f l) as [r' t]. cbn [fst] in *. exists (b :: u). cbn [app]. now rewrite <- IH. }
  assert (Hc : forall l r v, p_cstring l = Ok (r, v) -> exists u, l = u ++ r).
  { intros l r v E. unfold p_cstring in E. pose proof (Hw (fun x => negb (x =? 0)) l) as [u Hu]. destruct (p_while _ l) as [r' t]. cbn [fst] in Hu. apply obind_ok in E as ([r2 b] & E1 & E2). injection E2 as <- <-.
    destruct (Htk _ _ _ _ E1) as [u2 ->]. exists (u ++ u2). now rewrite Hu, app_assoc. }
  intros l r m E. unfold parse_map_info in E.
  assert (Hz : forall (b : bool) (l l' : list Z), (if b then do (t, _) <- p_take 8 l; Ok t else Ok l) = Ok l' -> exists u, l = u ++ l').
  { intros [] l0 l' E0; [|injection E0 as <-; exists []; reflexivity]. apply obind_ok in E0 as ([t v] & E1 & E2). injection E2 as <-. exact (Htk _ _ _ _ E1). }
  repeat match goal with
  | K : (let (_, _) := p_while ?f ?x in _) = Ok _ |- _ => pose proof (Hw f x) as [? ?]; destruct (p_while f x); cbn [fst] in *
  | K : obind _ _ = Ok _ |- _ => apply obind_ok in K as ([? ?] & ? & K)
  | K : obind _ _ = Ok _ |- _ => apply obind_ok in K as (? & ? & K)
  | K : (if ?b then Err _ else _) = Ok _ |- _ => destruct b; [discriminate K|]
  end. injection E as <- <-.
  repeat match goal with
  | K : p_tag _ _ = Ok _ |- _ => apply Htag in K as [? K]
  | K : p_take _ _ = Ok _ |- _ => apply Htk in K as [? K]
  | K : p_i32 _ = Ok _ |- _ => apply Hi in K as [? K]
  | K : p_cstring _ = Ok _ |- _ => apply Hc in K as [? K]
  | K : (if _ then _ else _) = Ok _ |- _ => apply Hz in K as [? K]
  end. subst. eexists. rewrite !app_assoc. reflexivity.
Qed.
Lemma cut_at : forall A (f : list Z -> outcome (list Z * A)), extends f -> (forall l, f l <> Panic) ->
  forall l r a k, f l = Ok (r, a) -> (exists used, l = used ++ r) -> (k < length l - length r)%nat -> exists e, f (firstn k l) = Err e.
Proof.
  intros A f He Hp l r a k E [used ->] Hk. rewrite app_length in Hk. apply (cut_refused A f He Hp used r a _ (skipn k used) E).
  - rewrite firstn_app. replace (k - length used)%nat with 0%nat by lia. rewrite firstn_O, app_nil_r. symmetry. apply firstn_skipn.
  - intros Hn. apply (f_equal (@length Z)) in Hn. rewrite skipn_length in Hn. cbn [length] in Hn. lia.
Qed.
Lemma map_info_cut : forall l r m k, parse_map_info l = Ok (r, m) -> (k < length l - length r)%nat -> exists e, parse_map_info (firstn k l) = Err e.
Proof. intros l r m k E. exact (cut_at _ _ map_info_ext map_info_calm l r m k E (map_info_suffix l r m E)). Qed.
Lemma height_map_cut : forall bd l m r hm k, -1 <= mi_width m <= 256 -> -1 <= mi_height m <= 256 -> parse_height_map bd l m = Ok (r, hm) -> (k < length l - length r)%nat ->
  exists e, parse_height_map bd (firstn k l) m = Err e.
Proof.
  intros bd l m r hm k Hw Hh E. apply (cut_at _ (fun l => parse_height_map bd l m) (height_map_ext bd m) (fun l => height_map_calm bd l m (fun _ => conj Hw Hh)) l r hm k E).
  destruct (height_map_lookup bd l m r hm E Hw Hh) as (_ & _ & _ & _ & ->). exists (firstn (Z.to_nat (32 + 6 * (hm_width hm * hm_height hm))) l). symmetry. apply firstn_skipn.
Qed.
Lemma document_left_calm : forall l, document_left l <> Panic.
Proof.
  intros l E. pose proof (document_left_same l) as H. destruct (parse_document l) as [[r h]|e|] eqn:Ep; [destruct H as [x H]|..]; try congruence. exact (document_calm l Ep).
Qed.
Lemma document_cut : forall f k, doc_file_ok f -> (k < length (doc_head f ++ doc_body f))%nat -> exists e, parse_document (firstn k (doc_head f ++ doc_body f)) = Err e.
Proof.
  intros f k Hf Hk. destruct (document_left_reads f [] Hf) as [h Hh]. rewrite app_nil_r in Hh.
  destruct (cut_at _ _ document_left_ext document_left_calm _ _ _ k Hh (ex_intro _ _ (eq_sym (app_nil_r _)))) as [e He]; [cbn [length]; lia|].
  pose proof (document_left_same (firstn k (doc_head f ++ doc_body f))) as S. destruct (parse_document _) as [[r h']|e'|]; [destruct S as [x S]; congruence|exists e'; reflexivity|congruence].
Qed.

(** ** Exactly when a height map stops the program *)
Lemma le32_of_bytes : forall t, bytes_ok t -> length t = 4%nat -> le32 (le_i32 t) = t.
Proof.
  intros t Hb Hl. destruct t as [|a [|b [|c [|d [|]]]]]; try discriminate Hl. unfold bytes_ok in Hb.
  repeat match goal with H : Forall _ (_ :: _) |- _ => inversion H; clear H; subst end.
  unfold le32, le_i32, as_i32, two32. cbn [le_bytes]. repeat match goal with H : byte_ok _ |- _ => unfold byte_ok in H end.
  set (v := a + 256 * (b + 256 * (c + 256 * (d + 256 * 0)))). assert (Hv : 0 <= v < 4294967296) by (unfold v; lia).
  assert (E : exists k, (v + 2147483648) mod 4294967296 - 2147483648 = v + 4294967296 * k) by (exists (- ((v + 2147483648) / 4294967296)); dlia).
  destruct E as [k ->]. unfold v. repeat f_equal; dlia.
Qed.
Lemma ovf_checked : forall z, ovf_i32 Checked z = Panic <-> ~ is_i32 z.
Proof. intros z. unfold ovf_i32, in_i32, is_i32. destruct (_ && _) eqn:E; split; intros H; try discriminate; try reflexivity; lia. Qed.
Lemma height_map_panics : forall map_input map_rest m input, bytes_ok input -> parse_map_info map_input = Ok (map_rest, m) ->
  (parse_height_map Checked input m = Panic <->
   ~ (- 2 ^ 31 <= 6 * ((mi_width m + 1) * (mi_height m + 1)) < 2 ^ 31) /\
   exists sixteen rest, length sixteen = 16%nat /\ input = ascii_bytes "HMAP" ++ [0x65; 0; 0; 0] ++ le32 (mi_width m + 1) ++ le32 (mi_height m + 1) ++ sixteen ++ rest).
Proof.
  intros mi mr m input Hb Em. assert (Hm : is_i32 (mi_width m + 1) /\ is_i32 (mi_height m + 1)).
  { destruct (map_info_bounds _ _ _ Em) as (I & A & B & _). unfold map_i32, is_i32 in I. unfold is_i32. lia. }
  destruct Hm as [Hw Hh]. assert (Hd : terrain_dim_map Checked m = Ok (mi_width m + 1, mi_height m + 1)) by (unfold terrain_dim_map; now apply pair32_in).
  set (w := mi_width m + 1) in *. set (h := mi_height m + 1) in *. clearbody w h. split.
  - intros E. unfold parse_height_map in E. change [72; 77; 65; 80] with (ascii_bytes "HMAP") in E.
    destruct (p_tag (ascii_bytes "HMAP") input) as [l1|e|] eqn:E1; cbn [obind] in E; [|discriminate|exfalso; exact (tag_calm _ _ E1)]. apply p_tag_sound in E1.
    destruct (p_tag _ l1) as [l2|e|] eqn:E2; cbn [obind] in E; [|discriminate|exfalso; exact (tag_calm _ _ E2)]. apply p_tag_sound in E2.
    destruct (p_i32 l2) as [[l3 w']|e|] eqn:E3; cbn [obind] in E; [|discriminate|exfalso; exact (i32_calm _ E3)]. apply p_i32_sound in E3 as [_ (t3 & E3 & L3 & ->)].
    destruct (p_i32 l3) as [[l4 h']|e|] eqn:E4; cbn [obind] in E; [|discriminate|exfalso; exact (i32_calm _ E4)]. apply p_i32_sound in E4 as [_ (t4 & E4 & L4 & ->)].
    rewrite Hd in E. cbn [obind fst snd] in E. destruct (negb _) eqn:En; [discriminate|]. apply negb_false_iff, andb_true_iff in En as [Ew Eh]. apply Z.eqb_eq in Ew, Eh.
    destruct (p_take 16 l4) as [[l5 u]|e|] eqn:E5; cbn [obind] in E; [|discriminate|exfalso; exact (take_calm _ _ E5)]. apply p_take_sound in E5 as [E5 L5].
    assert (Bt : bytes_ok t3 /\ bytes_ok t4). { unfold bytes_ok in *. rewrite E1, E2, E3, E4, !Forall_app in Hb. tauto. }
    split.
    + intros K. rewrite Ew, Eh in E. rewrite !(ovf_i32_in _ (w * h)) in E by (unfold is_i32; lia). cbn [obind] in E. rewrite ovf_i32_in in E by (unfold is_i32; lia). cbn [obind] in E.
      destruct (_ <? _); [discriminate|]. destruct (height_loop _ _ _) as [[? ?]|?|] eqn:El; cbn [obind] in E; [discriminate|discriminate|]. exact (height_loop_calm _ _ _ El).
    + exists u, l5. split; [exact L5|]. rewrite E1, E2, E3, E4, E5, <- Ew, <- Eh. rewrite !le32_of_bytes by tauto. reflexivity.
  - intros [K (u & rest & Lu & ->)]. unfold parse_height_map. change [72; 77; 65; 80] with (ascii_bytes "HMAP"). rewrite p_tag_app. cbn [obind]. rewrite p_tag_app. cbn [obind].
    rewrite p_i32_app by exact Hw. cbn [obind]. rewrite p_i32_app by exact Hh. cbn [obind]. rewrite Hd. cbn [obind fst snd]. rewrite !Z.eqb_refl. cbn [andb negb].
    rewrite p_take_app by exact Lu. cbn [obind]. destruct (ovf_i32 Checked (w * h)) as [a|e|] eqn:Ea; cbn [obind]; [|exfalso; unfold ovf_i32 in Ea; destruct (in_i32 _); discriminate|reflexivity].
    assert (a = w * h) by (unfold ovf_i32 in Ea; destruct (in_i32 _); congruence). subst a.
    replace (ovf_i32 Checked (w * h * 6)) with (@Panic Z); [reflexivity|]. symmetry. apply ovf_checked. unfold is_i32. lia.
Qed.
