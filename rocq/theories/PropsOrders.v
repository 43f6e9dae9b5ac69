(** * C129: the record of a unit carries the last order given to it *)
From Verif Require Import Base F32 Tags Events Maps Balance Lobby Convert State StateFacts StateSpec StateExample MergeSpec UnitOrders.
#[local] Open Scope string_scope.
#[local] Open Scope Z_scope.
#[local] Open Scope list_scope.

(** C129, false: a command without ability - a right click - leaves no trace in
    the units that are told to follow it: unit 8 still carries the order before. *)
Definition first_cmd := mk_cmd 256 (Some (mk_abil 40 "" 0 None)) CDNone 1 None None.
Definition right_click := mk_cmd 512 None (CDPoint (mk_coord 4096 8192 0)) 2 None None.
Definition before_click := ex_events ++ [EGame 6 0 None (GCmd first_cmd)].
Lemma existsb_in : forall x l, existsb (Z.eqb x) l = true -> In x l.
Proof. intros x l H. apply existsb_exists in H as (y & Hy & E). apply Z.eqb_eq in E. now subst. Qed.
Definition after_click := before_click ++ [EGame 7 0 None (GCmd right_click)].
Lemma clicked_before : exists st its, run ex_mc ex_start before_click = Ok (st, its) /\ In 8 (indices (selection st 0)).
Proof.
  assert (B : match run ex_mc ex_start before_click with Ok (st, _) => existsb (Z.eqb 8) (indices (selection st 0)) = true | _ => False end) by (vm_compute; reflexivity).
  destruct (run ex_mc ex_start before_click) as [[st its]|e|]; try contradiction. exists st, its. split; [reflexivity|exact (existsb_in _ _ B)].
Qed.
Lemma clicked_after : exists st its u, run ex_mc ex_start after_click = Ok (st, its) /\ unit_of st 8 = Some u /\ uc_sequence (su_cmd u) = 1 /\ uc_data (su_cmd u) = UDNone.
Proof.
  assert (B : match run ex_mc ex_start after_click with Ok (st, _) => match unit_of st 8 with Some u => uc_sequence (su_cmd u) = 1 /\ uc_data (su_cmd u) = UDNone | None => False end | _ => False end)
    by (vm_compute; split; reflexivity).
  destruct (run ex_mc ex_start after_click) as [[st its]|e|]; try contradiction. destruct (unit_of st 8) as [u|] eqn:Eu; [|contradiction]. exists st, its, u. auto.
Qed.
Theorem C129_order_refuted : exists mc st0 evs gl uid n c st1 its1 st its i u, history mc st0 evs st1 its1 /\ In i (indices (selection st1 uid)) /\
  history mc st0 (evs ++ [EGame gl uid n (GCmd c)]) st its /\ unit_of st i = Some u /\
  uc_sequence (su_cmd u) <> cm_sequence c /\ ~ carries (cm_data c) (uc_data (su_cmd u)).
Proof.
  destruct clicked_before as (st1 & its1 & E1 & B1). destruct clicked_after as (st & its & u & E & Eu & B2 & B3).
  assert (Hs : exists init d b, starts init d b ex_start) by (exists ex_init, ex_details, ex_balance; exact ex_starts).
  exists ex_mc, ex_start, before_click, 7, 0, None, right_click, st1, its1, st, its, 8, u. split; [split; [exact Hs|exact E1]|].
  split; [exact B1|]. split; [split; [exact Hs|exact E]|]. split; [exact Eu|]. rewrite B2, B3. split; [discriminate|exact (fun x => x)].
Qed.
Print Assumptions C129_order_refuted.

(** For commands with an ability and updates of the target ([reaches],
    [effective]): the record of a registered unit carries the order that the last
    one that reached it left in it, or no order if none did since the unit was
    registered. *)
Theorem C129_order_partial : forall mc st0 evs st its i u, history mc st0 evs st its -> unit_of st i = Some u ->
  exists before e after, evs = before ++ e :: after /\ (forall e', In e' after -> removes e' <> Some i) /\
    (forall after1 e' after2 st1 its1, after = after1 ++ e' :: after2 -> history mc st0 (before ++ e :: after1) st1 its1 -> ~ reaches st1 i e') /\
    (registers e = Some i /\ ~ alive i before /\ su_cmd u = mk_ucmd 0 None UDNone 0 None None None \/
     exists st1 its1 u1, history mc st0 before st1 its1 /\ unit_of st1 i = Some u1 /\ reaches st1 i e /\ leaves st1 e u1 u).
Proof. exact last_order. Qed.
Print Assumptions C129_order_partial.
(** Unit 8 has the order of loop 6, unit 7 - not selected any more - none. *)
Lemma clicked_orders : exists st its u7 u8, run ex_mc ex_start before_click = Ok (st, its) /\ unit_of st 8 = Some u8 /\ unit_of st 7 = Some u7 /\
  uc_flags (su_cmd u8) = 256 /\ su_cmd u7 = mk_ucmd 0 None UDNone 0 None None None.
Proof.
  assert (B : match run ex_mc ex_start before_click with
    | Ok (st, _) => match unit_of st 7, unit_of st 8 with Some u7, Some u8 => uc_flags (su_cmd u8) = 256 /\ su_cmd u7 = mk_ucmd 0 None UDNone 0 None None None | _, _ => False end
    | _ => False end) by (vm_compute; split; reflexivity).
  destruct (run ex_mc ex_start before_click) as [[st its]|e|]; try contradiction.
  destruct (unit_of st 7) as [u7|] eqn:E7; [|contradiction]. destruct (unit_of st 8) as [u8|] eqn:E8; [|contradiction]. exists st, its, u7, u8. auto.
Qed.
Example C129_example : exists st its u7 u8, history ex_mc ex_start before_click st its /\
  reaches ex_state 8 (EGame 6 0 None (GCmd first_cmd)) /\ unit_of st 8 = Some u8 /\ unit_of st 7 = Some u7 /\
  uc_flags (su_cmd u8) = 256 /\ su_cmd u7 = mk_ucmd 0 None UDNone 0 None None None.
Proof.
  destruct clicked_orders as (st & its & u7 & u8 & E & E8 & E7 & B). exists st, its, u7, u8.
  split; [split; [exists ex_init, ex_details, ex_balance; exact ex_starts|exact E]|].
  split; [split; [discriminate|apply existsb_in; vm_compute; reflexivity]|]. split; [exact E8|]. split; [exact E7|exact B].
Qed.
