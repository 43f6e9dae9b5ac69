(** * Reference encoders for whole sectors, used for examples *)
From Verif Require Import Base Types BitSpec BitFormat BitEncode VersionedSpec VersionedEncode ByteTypes BitTypes StreamSpec.
#[local] Open Scope string_scope.
#[local] Open Scope Z_scope.
#[local] Open Scope list_scope.

Fixpoint encode_tracker (evs : list (Z * val)) : option (list Z) :=
  match evs with
  | [] => Some []
  | (d, v) :: evs' =>
      match vencode ba_SVarUint32 (VChoice "MUint32" (VInt d)), vencode ba_ReplayTrackerEEventId v, encode_tracker evs' with
      | Some b1, Some b2, Some bs => Some (b1 ++ b2 ++ bs)
      | _, _, _ => None
      end
  end.
Lemma encode_tracker_sector : forall evs bs, encode_tracker evs = Some bs -> tracker_sector evs bs.
Proof.
  induction evs as [|[d v] evs IH]; intros bs E; cbn [encode_tracker] in E; [injection E as <-; constructor|].
  destruct (vencode ba_SVarUint32 _) as [b1|] eqn:E1; [|discriminate]. destruct (vencode ba_ReplayTrackerEEventId v) as [b2|] eqn:E2; [|discriminate].
  destruct (encode_tracker evs) as [b3|] eqn:E3; [|discriminate]. injection E as <-.
  apply ts_cons with (size := "MUint32"); [apply vencode_venc; [reflexivity|exact E1]|apply vencode_venc; [reflexivity|exact E2]|now apply IH].
Qed.
Fixpoint encode_user (t : bty) (evs : list (Z * (Z * val))) : option (list bool) :=
  match evs with
  | [] => Some []
  | (d, (u, v)) :: evs' =>
      match bencode bp_SVarUint32 0 (VChoice "MUint32" (VInt d)) with
      | Some l1 =>
          match bencode bp_ReplaySGameUserId (after 0 l1) (VStruct [("m_user_id", VInt u)]) with
          | Some l2 =>
              match bencode t (after 0 (l1 ++ l2)) v, encode_user t evs' with
              | Some l3, Some bits => Some (l1 ++ l2 ++ l3 ++ repeat false ((8 - after 0 (l1 ++ l2 ++ l3)) mod 8) ++ bits)
              | _, _ => None
              end
          | None => None
          end
      | None => None
      end
  end.
Lemma after_lt : forall o l, (after o l < 8)%nat.
Proof. intros. unfold after. apply Nat.mod_upper_bound. lia. Qed.
Lemma encode_user_sector : forall t evs bits, wf_bty t = true -> encode_user t evs = Some bits -> user_sector blizzard t evs bits.
Proof.
  intros t evs bits Hwf. revert bits. induction evs as [|[d [u v]] evs IH]; intros bits E; cbn [encode_user] in E; [injection E as <-; constructor|].
  destruct (bencode bp_SVarUint32 _ _) as [l1|] eqn:E1; [|discriminate]. destruct (bencode bp_ReplaySGameUserId _ _) as [l2|] eqn:E2; [|discriminate].
  destruct (bencode t _ _) as [l3|] eqn:E3; [|discriminate]. destruct (encode_user t evs) as [b|] eqn:E4; [|discriminate]. injection E as <-.
  apply us_cons with (size := "MUint32").
  - apply bencode_benc; [reflexivity|lia|exact E1].
  - apply bencode_benc; [reflexivity|apply after_lt|exact E2].
  - apply bencode_benc; [exact Hwf|apply after_lt|exact E3].
  - unfold is_pad. now rewrite repeat_length.
  - now apply IH.
Qed.
