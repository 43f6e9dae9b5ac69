(** * Decoders and readers look only at what they consume (C124)

    [a ++ b] is an input, [a] what is left of it when the end is cut off. *)
From Verif Require Import Base Types Versioned ByteTypes BitTypes BitSpec BitPacked BitInterp BitEncode BitFacts Events Convert ConvertSpec Stream Iterators Dispatch ExtendFacts ExtendStreams SectorEncode PropsIterators.
#[local] Open Scope string_scope.
#[local] Open Scope Z_scope.
#[local] Open Scope list_scope.

(** C124.  What follows a value does not change it, and is left as it is. *)
Theorem C124_bytes : forall m name t a b r v, In (name, t) ba_all -> vparse m t a = Ok (r, v) -> vparse m t (a ++ b) = Ok (r ++ b, v).
Proof. exact (fun m _ t a b r v _ Hr => eq_ind (vparse m t a) (fun x => ext b x (vparse m t (a ++ b))) (vparse_local m t a b) _ Hr). Qed.
Print Assumptions C124_bytes.
Theorem C124_bits : forall m name t a k b a' k' v, In (name, t) bit_types -> cursor_ok (a, k) -> bytes_ok b -> bparse m t (a, k) = Ok ((a', k'), v) ->
  bparse m t (a ++ b, k) = Ok ((a' ++ b, k'), v).
Proof. exact (fun m name t a k b a' k' v Hin Hc Hb => bparse_longer m t b (a, k) (a', k') v (bit_wf name t Hin) Hb Hc). Qed.
Print Assumptions C124_bits.

(** An iterator over a sector that was cut answers like one over the whole
    sector, until it has nothing more to say ... *)
Theorem C124_cut : forall m p names n a b, bytes_ok a -> bytes_ok b ->
  (forall answers, tracker_calls m p n (tracker_start (a ++ b)) = Ok answers ->
    exists k, (k <= n)%nat /\ tracker_calls m p n (tracker_start a) = Ok (firstn k answers ++ repeat None (n - k))) /\
  (forall answers, game_calls m p names n (game_start (a ++ b)) = Ok answers ->
    exists k, (k <= n)%nat /\ game_calls m p names n (game_start a) = Ok (firstn k answers ++ repeat None (n - k))).
Proof. exact (fun m p names n a b Ha Hb => conj (fun x => tracker_calls_cut m p n a b x Ha Hb) (fun x => game_calls_cut m p names n a b x Ha Hb)). Qed.
Print Assumptions C124_cut.

(** ... and the events it has given are the first ones of the whole sector,
    whatever comes later in it. *)
Theorem C124_stay : forall m p names n a b, bytes_ok a -> bytes_ok b ->
  (forall evs, tracker_calls m p n (tracker_start a) = Ok (map Some evs) -> tracker_calls m p n (tracker_start (a ++ b)) = Ok (map Some evs)) /\
  (forall evs, game_calls m p names n (game_start a) = Ok (map Some evs) -> game_calls m p names n (game_start (a ++ b)) = Ok (map Some evs)).
Proof. exact (fun m p names n a b Ha Hb => conj (fun x => tracker_calls_stay m p n a b x Ha Hb) (fun x => game_calls_stay m p names n a b x Ha Hb)). Qed.
Print Assumptions C124_stay.

(** The readers of whole sectors fail or give the first events. *)
Theorem C124_batch : forall m p a b, bytes_ok a -> bytes_ok b ->
  (forall evs, read_tracker_events m p (a ++ b) = Ok evs -> (exists e, read_tracker_events m p a = Err e) \/ exists k, read_tracker_events m p a = Ok (firstn k evs)) /\
  (forall evs, read_game_events m p (a ++ b) = Ok evs -> (exists e, read_game_events m p a = Err e) \/ exists k, read_game_events m p a = Ok (firstn k evs)) /\
  (forall evs, read_message_events m p (a ++ b) = Ok evs -> (exists e, read_message_events m p a = Err e) \/ exists k, read_message_events m p a = Ok (firstn k evs)).
Proof.
  exact (fun m p a b Ha Hb => conj (fun x => tracker_batch_cut m p a b x Ha Hb) (conj (fun x => game_batch_cut m p a b x Ha Hb) (fun x => message_batch_cut m p a b x Ha Hb))).
Qed.
Print Assumptions C124_batch.

(** Two finished units; the second is cut at every place. *)
Definition cut_sector : list Z := Eval vm_compute in match encode_tracker [(3, v_done 1 0); (4, v_done 2 1)] with Some b => b | None => [] end.
Definition cut_answers (k : nat) := tracker_calls Checked P87702 3 (tracker_start (firstn k cut_sector)).
Example C124_example : bytes_ok cut_sector /\
  cut_answers 28 = Ok [Some (3, TUnitDone (mk_unit_done 1 0)); Some (7, TUnitDone (mk_unit_done 2 1)); None] /\
  Forall (fun k => cut_answers k = Ok [Some (3, TUnitDone (mk_unit_done 1 0)); None; None]) (seq 14 14) /\
  Forall (fun k => cut_answers k = Ok [None; None; None]) (seq 0 14) /\
  read_tracker_events Checked P87702 (firstn 14 cut_sector) = Ok [(3, TUnitDone (mk_unit_done 1 0))] /\
  read_tracker_events Checked P87702 (firstn 15 cut_sector) = Err ENom.
Proof.
  split; [apply byte_list_ok; vm_compute; reflexivity|]. split; [vm_compute; reflexivity|].
  split; [repeat (constructor; [vm_compute; reflexivity|]); constructor|]. split; [repeat (constructor; [vm_compute; reflexivity|]); constructor|].
  split; vm_compute; reflexivity.
Qed.
Example C124_bits_example : In ("TRacePreference", bp_TRacePreference) bit_types /\ cursor_ok ([129; 0], 0%nat) /\
  bparse Checked bp_TRacePreference ([129; 0], 0%nat) = Ok (([0], 1%nat), VStruct [("m_race", VOpt (Some (VInt 128)))]) /\
  bparse Checked bp_TRacePreference ([129; 0; 77], 0%nat) = Ok (([0; 77], 1%nat), VStruct [("m_race", VOpt (Some (VInt 128)))]).
Proof.
  split; [apply (nth_error_In bit_types 3); vm_compute; reflexivity|]. split; [split; [apply byte_list_ok; vm_compute; reflexivity|split; [cbn; lia|now cbn]]|].
  split; vm_compute; reflexivity.
Qed.
