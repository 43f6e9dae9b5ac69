(** * Facts about writing balance data *)
From Coq Require Import Ascii Permutation.
From Verif Require Import Base Utf8 Convert ConvertSpec DetailsData Files FilesFacts BalanceFiles BalanceSpec BalanceText BalanceFacts.
#[local] Open Scope string_scope.
#[local] Open Scope Z_scope.
#[local] Open Scope list_scope.

Definition good_key (k : Z * string) : Prop := 0 <= fst k < two32 /\ plain (snd k).
Definition file_name (n : string) : string := (n ++ ".json")%string.
Lemma json_no_slash : ~ contains "/" ".json". Proof. vm_compute. intros K. repeat (destruct K as [K|K]; [discriminate|]). destruct K. Qed.
Lemma json_no_nul : ~ contains "000" ".json". Proof. vm_compute. intros K. repeat (destruct K as [K|K]; [discriminate|]). destruct K. Qed.
Lemma bare_file : forall n, plain n -> bare_name (file_name n) n.
Proof. intros n (_ & _ & Hn). split; [exact Hn|]. exists 1%nat. reflexivity. Qed.
Lemma file_inj : forall n n', file_name n = file_name n' -> n = n'.
Proof. intros n n' E. pose proof (f_equal (strip_suffix ".json") E) as K. unfold file_name in K. rewrite !strip_app in K. now injection K. Qed.
Lemma file_ne : forall n x, String.length x = 2%nat -> file_name n <> x.
Proof. intros n x Hx E. rewrite <- E in Hx. unfold file_name in Hx. rewrite slen_app in Hx. cbn in Hx. lia. Qed.
Lemma show_ne : forall v, 0 <= v < two32 -> show_u32 v <> "" /\ show_u32 v <> "..".
Proof.
  intros v Hv. destruct (show_digits_list v Hv) as (l & El & Hl & Hd). split; intros E; rewrite E in El; cbn in El; subst l; [congruence|]. cbn [digits] in Hd. destruct Hd as [[K _] _]. vm_compute in K. now apply K.
Qed.
Lemma slash_not_digit : ~ 48 <= Z_of_ascii "/" <= 57. Proof. vm_compute. intros [H _]. now apply H. Qed.
Lemma nul_not_digit : ~ 48 <= Z_of_ascii "000" <= 57. Proof. vm_compute. intros [H _]. now apply H. Qed.

Section Write.
  Context {U : Type}.
  Variable enc : U -> list Z.
  Variable dec : list Z -> option U.
  Definition holds (d : disk) (m : units U) : Prop :=
    good_disk d /\
    (forall p x, In (p, x) d -> (exists v, 0 <= v < two32 /\ p = [show_u32 v] /\ x = DDir) \/
       exists v n u, good_key (v, n) /\ p = [show_u32 v; file_name n] /\ x = DFile (enc u) /\ uget (v, n) m = Some u) /\
    forall v n u, uget (v, n) m = Some u -> good_key (v, n) /\ In ([show_u32 v; file_name n], DFile (enc u)) d.
  Lemma holds_empty : holds [] [].
  Proof. split; [split; [constructor|split; [constructor|intros p n x []]]|]. split; [intros p x []|discriminate]. Qed.
  Lemma good_dset : forall d p n x, good_disk d -> n <> "" -> ~ contains "/" n -> (p = [] \/ dget p d = Some DDir) -> (dget (p ++ [n]) d = None \/ x = DDir \/ exists c, dget (p ++ [n]) d = Some (DFile c)) ->
    Forall (fun n => n <> "" /\ ~ contains "/" n) p -> good_disk (dset (p ++ [n]) x d).
  Proof.
    intros d p n x (Hd & Hn & Hp) Hne Hs Hpar Hold Hpn. destruct (dset_keys d (p ++ [n]) x Hd) as [Hd' Hk]. split; [exact Hd'|]. split.
    - apply Forall_forall. intros [q y] Hi. cbn [fst]. apply (in_map fst) in Hi. cbn [fst] in Hi. apply Hk in Hi as [->|Hi].
      + split; [destruct p; discriminate|]. apply Forall_app. split; [exact Hpn|]. repeat constructor; assumption.
      + apply in_map_iff in Hi as ([q' z] & Eq & Hi). cbn [fst] in Eq. subst q'. rewrite Forall_forall in Hn. exact (Hn _ Hi).
    - intros q m y Hi. apply (in_dget _ _ _ Hd') in Hi. rewrite dget_dset in Hi.
      assert (K : q = [] \/ dget q d = Some DDir).
      { destruct (path_eqb_spec (p ++ [n]) (q ++ [m])) as [E|_]; [apply app_inj_tail in E as [-> _]; exact Hpar|]. apply dget_in in Hi. destruct (Hp _ _ _ Hi) as [K|K]; [now left|right; now apply in_dget]. }
      destruct K as [K|K]; [now left|]. right. apply dget_in. rewrite dget_dset. destruct (path_eqb_spec (p ++ [n]) q) as [E|_]; [|exact K].
      subst q. destruct Hold as [H|[->|(c & H)]]; [congruence|reflexivity|congruence].
  Qed.
  Lemma write_unit_holds : forall d m k u, holds d m -> good_key k -> exists d', write_unit enc k u d = Ok d' /\ holds d' (uset k u m).
  Proof.
    intros d m [v n] u (Hg & Hi & Hu) [Hv Hn]. cbn [fst snd] in Hv, Hn. assert (Hn' := Hn). destruct Hn' as (Hs & Hz & Hj). pose proof Hg as (Hd & _ & Hpar).
    unfold write_unit. cbn [fst snd]. rewrite (unit_path v n Hv Hs). fold (file_name n). destruct (show_ne v Hv) as [Hne Hdd].
    assert (Hss : ~ contains "/" (show_u32 v)) by (apply show_no_char; [exact Hv|apply slash_not_digit]).
    assert (E0 : has_nul (show_u32 v ++ "/" ++ file_name n) = false).
    { apply not_true_is_false. intros K. apply has_nul_spec in K. rewrite !contains_app in K. destruct K as [K|[K|K]].
      - revert K. apply show_no_char; [exact Hv|apply nul_not_digit].
      - vm_compute in K. destruct K as [K|[]]. discriminate.
      - unfold file_name in K. rewrite contains_app in K. destruct K as [K|K]; [now apply Hz|now apply json_no_nul]. }
    rewrite E0. cbn [orb existsb removelast].
    assert (E1 : String.eqb ".." (show_u32 v) = false) by (apply String.eqb_neq; congruence).
    assert (E2 : String.eqb ".." (file_name n) = false) by (apply String.eqb_neq; intros K; symmetry in K; revert K; now apply file_ne).
    rewrite E1, E2. cbn [orb]. cbn [mkdirs app].
    (* the directory *)
    assert (D : exists d1, (match dget [show_u32 v] d with Some (DFile _) => Err (EOther "io") | Some DDir => Ok d | None => Ok (dset [show_u32 v] DDir d) end) = Ok d1 /\
      good_disk d1 /\ (forall q, dget q d1 = if path_eqb [show_u32 v] q then Some DDir else dget q d)).
    { destruct (dget [show_u32 v] d) as [[|c]|] eqn:Ed.
      - exists d. split; [reflexivity|]. split; [exact Hg|]. intros q. destruct (path_eqb_spec [show_u32 v] q) as [<-|]; [exact Ed|reflexivity].
      - exfalso. apply dget_in in Ed. destruct (Hi _ _ Ed) as [(w & _ & _ & K)|(w & n' & u' & _ & K & _)]; discriminate.
      - exists (dset [show_u32 v] DDir d). split; [reflexivity|]. split; [|intros q; apply dget_dset].
        apply (good_dset d [] (show_u32 v) DDir Hg Hne Hss); [now left|right; now left|constructor]. }
    destruct D as (d1 & Ed1 & Hg1 & Hd1).
    assert (Em : mkdirs [] [show_u32 v] d = Ok d1). { cbn [mkdirs app]. destruct (dget [show_u32 v] d) as [[|c]|]; exact Ed1. }
    cbn [mkdirs app] in Em. rewrite Em. cbn [obind]. unfold create.
    assert (Ef : dget [show_u32 v; file_name n] d1 = dget [show_u32 v; file_name n] d) by (rewrite Hd1; cbn [path_eqb]; now rewrite andb_false_r).
    assert (Ek : dget [show_u32 v; file_name n] d1 <> Some DDir).
    { rewrite Ef. intros K. apply dget_in in K. destruct (Hi _ _ K) as [(w & _ & K' & _)|(w & n' & u' & _ & _ & K' & _)]; discriminate. }
    exists (dset [show_u32 v; file_name n] (DFile (enc u)) d1). split; [destruct (dget [show_u32 v; file_name n] d1) as [[|c]|]; [congruence|reflexivity|reflexivity]|].
    assert (Hg2 : good_disk (dset [show_u32 v; file_name n] (DFile (enc u)) d1)).
    { apply (good_dset d1 [show_u32 v] (file_name n) (DFile (enc u)) Hg1).
      - intros K. unfold file_name in K. apply (f_equal String.length) in K. rewrite slen_app in K. cbn in K. lia.
      - unfold file_name. rewrite contains_app. intros [K|K]; [now apply Hs|now apply json_no_slash].
      - right. rewrite Hd1. cbn [path_eqb]. now rewrite String.eqb_refl.
      - cbn [app]. destruct (dget [show_u32 v; file_name n] d1) as [[|c]|]; [congruence|right; right; now exists c|now left].
      - repeat constructor; assumption. }
    split; [exact Hg2|]. destruct Hg2 as (Hd2 & _). split.
    - intros p x Hx. apply (in_dget _ _ _ Hd2) in Hx. rewrite dget_dset, Hd1 in Hx. destruct (path_eqb_spec [show_u32 v; file_name n] p) as [<-|Hp1].
      + right. exists v, n, u. split; [split; assumption|]. split; [reflexivity|]. split; [congruence|]. rewrite uget_uset. destruct (key_eqb_spec (v, n) (v, n)); [reflexivity|congruence].
      + destruct (path_eqb_spec [show_u32 v] p) as [<-|Hp2]; [left; exists v; split; [exact Hv|]; split; [reflexivity|congruence]|].
        apply dget_in in Hx. destruct (Hi _ _ Hx) as [K|(w & n' & u' & K1 & K2 & K3 & K4)]; [now left|]. right. exists w, n', u'. split; [exact K1|]. split; [exact K2|]. split; [exact K3|].
        rewrite uget_uset. destruct (key_eqb_spec (v, n) (w, n')) as [E|]; [|exact K4]. injection E as <- <-. congruence.
    - intros w n' u' Hw. rewrite uget_uset in Hw. destruct (key_eqb_spec (v, n) (w, n')) as [E|Hne'].
      + injection E as <- <-. injection Hw as <-. split; [split; assumption|]. apply dget_in. rewrite dget_dset. destruct (path_eqb_spec [show_u32 v; file_name n] [show_u32 v; file_name n]); [reflexivity|congruence].
      + destruct (Hu _ _ _ Hw) as [Hk Hin]. split; [exact Hk|]. apply dget_in. rewrite dget_dset, Hd1. apply (in_dget _ _ _ Hd) in Hin.
        destruct (path_eqb_spec [show_u32 v; file_name n] [show_u32 w; file_name n']) as [E|_].
        * exfalso. injection E as E1' E2'. apply Hne'. destruct Hk as [Hw' _]. cbn [fst] in Hw'. apply file_inj in E2'. apply show_inj in E1'; [congruence|exact Hv|exact Hw'].
        * cbn [path_eqb]. rewrite andb_false_r. exact Hin.
  Qed.
  Lemma write_json_holds : forall l d m, holds d m -> Forall (fun e => good_key (fst e)) l ->
    exists d' m', write_json enc l d = (Ok tt, d') /\ holds d' m' /\ (NoDup (map fst l) -> forall k, uget k m' = match uget k l with Some u => Some u | None => uget k m end).
  Proof.
    induction l as [|[k u] l IH]; intros d m Hh F; cbn [write_json].
    - exists d, m. auto.
    - inversion F as [|? ? Hk F']; subst. destruct (write_unit_holds d m k u Hh Hk) as (d1 & E1 & H1). rewrite E1. destruct (IH _ _ H1 F') as (d' & m' & E & H' & Hm). exists d', m'. split; [exact E|]. split; [exact H'|].
      intros Hd k'. cbn [map fst] in Hd. inversion Hd as [|? ? Hn Hd']; subst. rewrite (Hm Hd'). cbn [uget]. rewrite uget_uset. destruct (key_eqb_spec k k') as [->|]; [|reflexivity].
      destruct (uget k' l) as [u'|] eqn:El; [|reflexivity]. exfalso. apply Hn. apply uget_in in El. apply in_map_iff. exists (k', u'). auto.
  Qed.
  Lemma write_runs_holds : forall runs d m, holds d m -> Forall storable runs ->
    exists d' m', write_runs enc runs d = (Ok tt, d') /\ holds d' m' /\ forall k, uget k m' = match last_written k runs with Some u => Some u | None => uget k m end.
  Proof.
    induction runs as [|r runs IH]; intros d m Hh F; cbn [write_runs last_written].
    - exists d, m. auto.
    - inversion F as [|? ? [Hd Hk] F']; subst. destruct (write_json_holds r d m Hh Hk) as (d1 & m1 & E1 & H1 & Hm1). rewrite E1. destruct (IH _ _ H1 F') as (d' & m' & E & H' & Hm). exists d', m'. split; [exact E|]. split; [exact H'|].
      intros k. rewrite Hm, (Hm1 Hd). destruct (last_written k runs); [reflexivity|]. destruct (uget k r); reflexivity.
  Qed.
  (** What a disk holds is what is read. *)
  Lemma holds_file : forall d m k s f c, holds d m -> unit_file d k s f c -> exists u, good_key k /\ s = show_u32 (fst k) /\ f = file_name (snd k) /\ c = enc u /\ uget k m = Some u.
  Proof.
    intros d m [v n] s f c (_ & Hi & _) (Hf & Hs & Hb). cbn [fst snd] in *. destruct (Hi _ _ Hf) as [(w & _ & K & _)|(w & n' & u & K1 & K2 & K3 & K4)]; [discriminate|].
    injection K2 as -> ->. injection K3 as ->. assert (v = w) as -> by (eapply numeral_fun; [exact Hs|]; apply show_numeral; apply K1).
    assert (n = n') as -> by (eapply bare_fun; [exact Hb|]; apply bare_file; apply K1). exists u. auto.
  Qed.
  Lemma holds_clash : forall d m, holds d m -> no_clash d.
  Proof.
    intros d m Hh k s f c s' f' c' H1 H2. destruct (holds_file _ _ _ _ _ _ Hh H1) as (u & _ & -> & -> & _). destruct (holds_file _ _ _ _ _ _ Hh H2) as (u' & _ & -> & -> & _). auto.
  Qed.
  Lemma holds_same : forall d m m', (forall k u, uget k m = Some u -> dec (enc u) = Some u) -> holds d m -> (forall k u, uget k m' = Some u <-> exists s f c, unit_file d k s f c /\ dec c = Some u) -> forall k, uget k m' = uget k m.
  Proof.
    intros d m m' round_trip Hh H' k. assert (K : forall u, uget k m' = Some u <-> uget k m = Some u).
    { intros u. rewrite H'. split.
      - intros (s & f & c & Hf & Hc). destruct (holds_file _ _ _ _ _ _ Hh Hf) as (u' & _ & _ & _ & -> & Hu). rewrite (round_trip _ _ Hu) in Hc. congruence.
      - intros Hu. destruct k as [v n]. destruct Hh as (_ & _ & Hh). destruct (Hh _ _ _ Hu) as [[Hv Hn] Hin]. exists (show_u32 v), (file_name n), (enc u). split; [|exact (round_trip _ _ Hu)].
        split; [exact Hin|]. cbn [fst snd] in *. split; [now apply show_numeral|now apply bare_file]. }
    destruct (uget k m') as [u'|] eqn:E; [symmetry; now apply K|]. destruct (uget k m) as [u'|]; [|reflexivity]. assert (E' : None = Some u') by now apply K. exact E'.
  Qed.
  Lemma holds_decodes : forall d m k s f c, (forall k u, uget k m = Some u -> dec (enc u) = Some u) -> holds d m -> unit_file d k s f c -> dec c <> None.
  Proof. intros d m k s f c round_trip Hh Hf. destruct (holds_file _ _ _ _ _ _ Hh Hf) as (u & _ & _ & _ & -> & Hu). rewrite (round_trip _ _ Hu). discriminate. Qed.
End Write.

(** ** Reading any disk *)
Section Read.
  Context {U : Type}.
  Variable dec : list Z -> option U.
  Lemma json_dir_reads : forall order d, lists order -> good_disk d -> (forall k s f c, unit_file d k s f c -> dec c <> None) ->
    exists m, read_json_dir dec order d = Ok m /\
      (forall k u, uget k m = Some u -> exists s f c, unit_file d k s f c /\ dec c = Some u) /\ (forall k s f c, unit_file d k s f c -> uget k m <> None) /\
      (no_clash d -> forall k u, uget k m = Some u <-> exists s f c, unit_file d k s f c /\ dec c = Some u).
  Proof.
    intros order d Ho Hg Hc. unfold read_json_dir. rewrite read_dirs_load. destruct (load_disk dec d (dirs_in order d (order [] (children [] d)))) as (m & E & _ & H1 & H2); [intros; now apply dirs_in_spec|exact Hc|].
    exists m. split; [exact E|]. split; [exact H1|]. split; [exact H2|]. intros Hn k u. apply (disk_unique dec d); auto. apply Hg.
  Qed.
  Lemma json_dir_fails : forall order d k s f c, lists order -> good_disk d -> unit_file d k s f c -> dec c = None -> exists e, read_json_dir dec order d = Err e.
  Proof. intros order d k s f c Ho Hg Hf Hc. unfold read_json_dir. rewrite read_dirs_load. exists (EOther "json"). eapply (load_disk_err dec d); [intros; now apply dirs_in_spec|exact Hf|exact Hc]. Qed.
  Lemma assets_read : forall d l, good_disk d -> Permutation (assets_of d) l -> (forall k s f c, unit_file d k s f c -> dec c <> None) ->
    exists m, read_assets dec l [] = Ok m /\
      (forall k u, uget k m = Some u -> exists s f c, unit_file d k s f c /\ dec c = Some u) /\ (forall k s f c, unit_file d k s f c -> uget k m <> None) /\
      (no_clash d -> forall k u, uget k m = Some u <-> exists s f c, unit_file d k s f c /\ dec c = Some u).
  Proof.
    intros d l Hg Hl Hc. rewrite read_assets_load. destruct (load_disk dec d (asset_keys l)) as (m & E & _ & H1 & H2); [intros; now apply (asset_keys_spec dec)|exact Hc|].
    exists m. split; [exact E|]. split; [exact H1|]. split; [exact H2|]. intros Hn k u. apply (disk_unique dec d); auto. apply Hg.
  Qed.
  Lemma assets_fail : forall d l k s f c, good_disk d -> Permutation (assets_of d) l -> unit_file d k s f c -> dec c = None -> exists e, read_assets dec l [] = Err e.
  Proof. intros d l k s f c Hg Hl Hf Hc. rewrite read_assets_load. exists (EOther "json"). eapply (load_disk_err dec d); [intros; now apply (asset_keys_spec dec)|exact Hf|exact Hc]. Qed.
End Read.
