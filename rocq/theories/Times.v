(** * Replay times *)
From Verif Require Import Base.
#[local] Open Scope Z_scope.
#[local] Open Scope list_scope.

(** [i64] subtraction. *)
Definition i64_sub (bd : build) (a b : Z) : outcome Z := ovf_i64 bd (a - b).
(** [chrono::DateTime::from_timestamp(secs, nsecs)] followed by [naive_utc]
    (external): a time is kept as its seconds and nanoseconds since 1970.  It is
    [None] outside of chrono's years (-262143 to 262142) and for [nsecs] of 10^9
    or more (leap seconds, which this code never asks for, left out). *)
Definition chrono_min : Z := -8334601228800.
Definition chrono_max : Z := 8210266876799.
Definition from_timestamp (secs nsecs : Z) : option (Z * Z) :=
  if (chrono_min <=? secs) && (secs <=? chrono_max) && (0 <=? nsecs) && (nsecs <? 1000000000) then Some (secs, nsecs) else None.
(** Model of src/lib.rs:171-181 [transform_to_naivetime].  [/] of [i64]
    truncates; dividing by 10 cannot overflow. *)
Definition transform_to_naivetime (bd : build) (time_utc time_local_offset : Z) : outcome (option (Z * Z)) :=
  do a <- i64_sub bd (Z.quot time_utc 10) 11644473600000000;
  do micros <- i64_sub bd a (Z.quot time_local_offset 10);
  let secs := micros / 1000000 in
  do nsecs <- (let n := as_u32 (micros mod 1000000) * 1000 in if in_u32 n then Ok n else match bd with Checked => Panic | Wrapping => Ok (as_u32 n) end);
  Ok (from_timestamp secs nsecs).

(** ** Specification *)
(** 100-nanosecond ticks from 1601-01-01 to 1970-01-01: 369 years, 89 of them
    leap years. *)
Definition epoch_ticks : Z := (369 * 365 + 89) * 86400 * 10000000.
(** A time in nanoseconds since 1970. *)
Definition nanos (t : Z * Z) : Z := fst t * 1000000000 + snd t.
(** Later or the same. *)
Definition not_before (a b : Z * Z) : Prop := nanos a <= nanos b.

Lemma time_value : forall bd t off, in_i64 t = true -> in_i64 off = true ->
  exists r, transform_to_naivetime bd t off = Ok (Some r) /\ nanos r = (Z.quot t 10 - epoch_ticks / 10 - Z.quot off 10) * 1000 /\ 0 <= snd r < 1000000000.
Proof.
  intros bd t off Ht Ho. unfold in_i64, two63 in Ht, Ho. apply andb_true_iff in Ht as [Ht1 Ht2]. apply andb_true_iff in Ho as [Ho1 Ho2].
  apply Z.leb_le in Ht1, Ho1. apply Z.ltb_lt in Ht2, Ho2. unfold transform_to_naivetime, i64_sub, ovf_i64.
  assert (Bt : - 922337203685477580 <= Z.quot t 10 <= 922337203685477580) by (Z.to_euclidean_division_equations; lia).
  assert (Bo : - 922337203685477580 <= Z.quot off 10 <= 922337203685477580) by (Z.to_euclidean_division_equations; lia).
  set (a := Z.quot t 10) in *. set (b := Z.quot off 10) in *.
  replace (in_i64 (a - 11644473600000000)) with true by (symmetry; unfold in_i64, two63; apply andb_true_iff; split; [apply Z.leb_le|apply Z.ltb_lt]; lia).
  cbn [obind]. replace (in_i64 (a - 11644473600000000 - b)) with true by (symmetry; unfold in_i64, two63; apply andb_true_iff; split; [apply Z.leb_le|apply Z.ltb_lt]; lia).
  cbn [obind]. set (m := a - 11644473600000000 - b). pose proof (Z.mod_pos_bound m 1000000 ltac:(lia)) as Bm. pose proof (Z.div_mod m 1000000 ltac:(lia)) as Dm.
  unfold as_u32, two32. rewrite Z.mod_small by lia.
  replace (in_u32 (m mod 1000000 * 1000)) with true by (symmetry; unfold in_u32, two32; apply andb_true_iff; split; [apply Z.leb_le|apply Z.ltb_lt]; lia).
  cbn [obind]. exists (m / 1000000, m mod 1000000 * 1000).
  assert (Bs : chrono_min <= m / 1000000 <= chrono_max) by (unfold chrono_min, chrono_max, m in *; lia).
  split; [|unfold nanos; cbn [fst snd]; change (epoch_ticks / 10) with 11644473600000000; fold m; lia].
  unfold from_timestamp. replace (chrono_min <=? m / 1000000) with true by (symmetry; apply Z.leb_le; lia). replace (m / 1000000 <=? chrono_max) with true by (symmetry; apply Z.leb_le; lia).
  replace (0 <=? m mod 1000000 * 1000) with true by (symmetry; apply Z.leb_le; lia). replace (m mod 1000000 * 1000 <? 1000000000) with true by (symmetry; apply Z.ltb_lt; lia). reflexivity.
Qed.
Lemma time_exact : forall bd t off, in_i64 t = true -> in_i64 off = true -> 0 <= t -> off mod 10 = 0 ->
  exists r, transform_to_naivetime bd t off = Ok (Some r) /\ nanos r <= (t - epoch_ticks - off) * 100 < nanos r + 1000 /\ nanos r mod 1000 = 0.
Proof.
  intros bd t off Ht Ho H0 Hm. destruct (time_value bd t off Ht Ho) as (r & E & N & _). exists r. split; [exact E|]. rewrite N. change (epoch_ticks / 10) with 11644473600000000. change epoch_ticks with 116444736000000000.
  split; [|apply Z.mod_mul; lia]. Z.to_euclidean_division_equations; lia.
Qed.
Lemma time_near : forall bd t off, in_i64 t = true -> in_i64 off = true ->
  exists r, transform_to_naivetime bd t off = Ok (Some r) /\ Z.abs (nanos r - (t - epoch_ticks - off) * 100) < 2000.
Proof.
  intros bd t off Ht Ho. destruct (time_value bd t off Ht Ho) as (r & E & N & _). exists r. split; [exact E|]. rewrite N. change (epoch_ticks / 10) with 11644473600000000. change epoch_ticks with 116444736000000000. Z.to_euclidean_division_equations; lia.
Qed.
Lemma time_monotone : forall bd t t' off r r', in_i64 t = true -> in_i64 t' = true -> in_i64 off = true -> t <= t' ->
  transform_to_naivetime bd t off = Ok (Some r) -> transform_to_naivetime bd t' off = Ok (Some r') -> not_before r r'.
Proof.
  intros bd t t' off r r' Ht Ht' Ho Hl E E'. destruct (time_value bd t off Ht Ho) as (x & Ex & Nx & _). destruct (time_value bd t' off Ht' Ho) as (y & Ey & Ny & _).
  assert (x = r) by congruence. assert (y = r') by congruence. subst. unfold not_before. rewrite Nx, Ny. Z.to_euclidean_division_equations; lia.
Qed.
Lemma time_offset : forall bd t off off' r r', in_i64 t = true -> in_i64 off = true -> in_i64 off' = true -> off <= off' ->
  transform_to_naivetime bd t off = Ok (Some r) -> transform_to_naivetime bd t off' = Ok (Some r') -> not_before r' r.
Proof.
  intros bd t off off' r r' Ht Ho Ho' Hl E E'. destruct (time_value bd t off Ht Ho) as (x & Ex & Nx & _). destruct (time_value bd t off' Ht Ho') as (y & Ey & Ny & _).
  assert (x = r) by congruence. assert (y = r') by congruence. subst. unfold not_before. rewrite Nx, Ny. Z.to_euclidean_division_equations; lia.
Qed.
