(** * Properties C01-C03: variable-length integers *)
From Verif Require Import Base VlqSpec Vlq VlqProofs Types Versioned VersionedSpec VlqExact VersionedPrim.

(** C01.  Vocabulary: VlqSpec ([vlq_terminated], [vlq_magnitude], [vlq_value]). *)
Theorem C01_vlq_value : forall m g rest,
  bytes_ok g -> vlq_terminated g -> vlq_magnitude g < two63 -> (m = Wrapping \/ (length g <= 10)%nat) ->
  parse_vlq_int m (g ++ rest) = Ok (rest, vlq_value g).
Proof. exact parse_vlq_int_ok. Qed.
Print Assumptions C01_vlq_value.

Theorem C01_vlq_consumes : forall m input rest v, bytes_ok input ->
  parse_vlq_int m input = Ok (rest, v) -> exists g, input = g ++ rest /\ vlq_terminated g.
Proof. exact parse_vlq_int_consumes. Qed.
Print Assumptions C01_vlq_consumes.

(** A number without a last byte is an error. *)
Theorem C01_vlq_truncated : forall m input,
  Forall (fun b => 128 <= b) input -> bytes_ok input -> (m = Wrapping \/ (length input <= 10)%nat) ->
  parse_vlq_int m input = Err ENom.
Proof. exact parse_vlq_int_truncated. Qed.
Print Assumptions C01_vlq_truncated.

Theorem C01_vlq_split_unique : forall g1 g2 r1 r2,
  vlq_terminated g1 -> vlq_terminated g2 -> g1 ++ r1 = g2 ++ r2 -> g1 = g2 /\ r1 = r2.
Proof. exact vlq_terminated_unique. Qed.
Print Assumptions C01_vlq_split_unique.

Example C01_example : bytes_ok [0x81; 0xff; 0x01] /\ vlq_terminated [0x81; 0xff; 0x01] /\
  vlq_magnitude [0x81; 0xff; 0x01] = 64 * 255 /\ vlq_value [0x81; 0xff; 0x01] = - 16320 /\
  parse_vlq_int Checked ([0x81; 0xff; 0x01] ++ [7]) = Ok ([7], -16320).
Proof. repeat split; try (vm_compute; reflexivity || (repeat split; discriminate)). repeat constructor; discriminate. Qed.

Example C01_truncated_example : parse_vlq_int Checked [0x81; 0xff] = Err ENom.
Proof. reflexivity. Qed.

(** C02. *)
Theorem C02_vlq_round_trip : forall m v rest, - two63 < v < two63 ->
  parse_vlq_int m (vlq_encode v ++ rest) = Ok (rest, v).
Proof. exact vlq_round_trip. Qed.
Print Assumptions C02_vlq_round_trip.

Theorem C02_vlq_encode_valid : forall v, - two63 < v < two63 ->
  vlq_terminated (vlq_encode v) /\ vlq_value (vlq_encode v) = v /\ vlq_magnitude (vlq_encode v) = Z.abs v
  /\ bytes_ok (vlq_encode v) /\ (length (vlq_encode v) <= 11)%nat.
Proof. exact vlq_encode_ok. Qed.
Print Assumptions C02_vlq_encode_valid.

Example C02_example : vlq_encode (-9223372036854775807) = [255; 255; 255; 255; 255; 255; 255; 255; 255; 1].
Proof. vm_compute. reflexivity. Qed.

(** C03.  False of the code: a padded zero panics in a checked build, -2^63
    panics in a checked build, 2^64 is read as 0 in both builds, 2^69 is read
    as 32 in a wrapping build. *)
Theorem C03_vlq_overlong_refuted :
  (exists g, bytes_ok g /\ vlq_terminated g /\ vlq_value g = 0 /\ parse_vlq_int Checked g = Panic) /\
  (exists g, bytes_ok g /\ vlq_terminated g /\ vlq_value g = - two63 /\ parse_vlq_int Checked g = Panic) /\
  (exists g, bytes_ok g /\ vlq_terminated g /\ vlq_value g = two64 /\
     parse_vlq_int Checked g = Ok ([], 0) /\ parse_vlq_int Wrapping g = Ok ([], 0)) /\
  (exists g, bytes_ok g /\ vlq_terminated g /\ vlq_value g = 2 ^ 69 /\ parse_vlq_int Wrapping g = Ok ([], 32)).
Proof.
  exact (conj (ex_intro _ _ (let '(conj a (conj b (conj c d))) := overlong_facts in conj b (conj a (conj c d))))
        (conj (ex_intro _ _ (let '(conj a (conj b (conj c d))) := min_negated_facts in conj b (conj a (conj c d))))
        (conj (ex_intro _ _ (let '(conj a (conj b (conj c d))) := overflowing_facts in conj b (conj a (conj c d))))
              (ex_intro _ _ (let '(conj a (conj b (conj c d))) := overlong_wrap_facts in conj b (conj a (conj c d))))))).
Qed.
Print Assumptions C03_vlq_overlong_refuted.

(** What does hold.  A wrapping build never panics; a checked build accepts
    exactly the numbers of at most ten bytes, reading them modulo 2^64; without
    nine continuation bytes in a row neither build panics; and the two builds
    agree unless the checked one panics. *)
Theorem C03_vlq_wrapping_no_panic_partial : forall input, parse_vlq_int Wrapping input <> Panic.
Proof. exact parse_vlq_int_wrapping_no_panic. Qed.
Print Assumptions C03_vlq_wrapping_no_panic_partial.

Theorem C03_vlq_checked_exact_partial : forall input rest z, bytes_ok input ->
  parse_vlq_int Checked input = Ok (rest, z) <->
  exists g, input = g ++ rest /\ bytes_ok g /\ vlq_terminated g /\ (length g <= 10)%nat /\
    z = as_i64 (vlq_value g) /\ (as_i64 (vlq_magnitude g) = - two63 -> 0 <= vlq_value g).
Proof. exact parse_vlq_int_checked. Qed.
Print Assumptions C03_vlq_checked_exact_partial.

Theorem C03_vlq_no_run_no_panic_partial : forall m input, bytes_ok input -> no_run 9 input ->
  parse_vlq_int m input <> Panic.
Proof. exact parse_vlq_no_run. Qed.
Print Assumptions C03_vlq_no_run_no_panic_partial.

Theorem C03_vlq_builds_agree_partial : forall input, parse_vlq_int Checked input <> Panic ->
  parse_vlq_int Wrapping input = parse_vlq_int Checked input.
Proof. exact parse_vlq_int_agree. Qed.
Print Assumptions C03_vlq_builds_agree_partial.

Example C03_example : parse_vlq_int Checked [0x81; 0xff; 0x01] <> Panic.
Proof. discriminate. Qed.
