(** The history of SystemExamples as texts, and single texts. *)
From Verif Require Import Base BaseLemmas Text StdModel RouterTypes RegistryTypes OperatorsModel MultisigTypes
  RouterModel GatewayModel NexusModel RewardsModel RegistryModel VerifierModel MultisigModel MultisigExamples EncodingModel EncodingExamples
  ProverModel ProverExamples SigningExamples SystemModel SystemSpec SystemExamples EventsModel HandlersModel DaemonModel JsonModel
  WireModel WireSpec WireSystemModel WireSystemSpec.

Definition wx_tx (t : tx) : wtx :=
  {| wx_gas := tx_gas t; wx_env := {| we_env := tx_env t; we_other := fun _ => None |};
     wx_sender := tx_sender t; wx_sub := write (tx_sub t) |}.
(** anybody's text *)
Definition wx_text (a to : addr) (text : string) : wtx :=
  {| wx_gas := 9; wx_env := {| we_env := sys_env 400; we_other := fun _ => None |}; wx_sender := a;
     wx_sub := {| wb_to := to; wb_text := text; wb_funds := []; wb_reply := false |} |}.
Definition q : string := String """" "".
Definition str (s : string) : string := q +:+ s +:+ q.
(** the text of a freeze: with blanks and the fields in another order than written by [to_json] *)
Definition wx_freeze (c d : string) : string :=
  "{" +:+ str "freeze_chain" +:+ ": {" +:+ str "direction" +:+ ":" +:+ str d +:+ " , " +:+ str "chain" +:+ ":" +:+ str c +:+ "} }".
(** the history of SystemExamples, three bad texts (the last has a colon in the
    chain name), and a good one whose chain name has a capital letter *)
Definition wx_all : list wtx :=
  (wx_tx <$> sys_all) ++
  [wx_text "admin" "router" "freeze sui"; wx_text "admin" "router" (wx_freeze "sui" "incoming");
   wx_text "admin" "router" (wx_freeze "a:b" "Incoming"); wx_text "admin" "router" (wx_freeze "Sui" "Incoming")].
Definition wx_count (l : list (wtx * list wcall)) : nat * nat := (length l, length (concat (snd <$> l))).
Definition wx_frozen (st : chain) : option bool :=
  match st !! "router" with
  | Some (CRouter s) => incoming_frozen <$> rt_chains s !! "sui"
  | _ => None
  end.
(** of 44 transactions the two that fail in SystemExamples and the three bad texts fail *)
Lemma wx_counts : length wx_all = 44%nat /\
  wx_count (wsyslog ex_keccak ex_wshash ex_sec1 ex_crypto sys_dep wx_all) = (39%nat, 54%nat) /\
  wx_frozen (wsysrun ex_keccak ex_wshash ex_sec1 ex_crypto sys_dep (wx_tx <$> sys_all)) = Some false /\
  wx_frozen (wsysrun ex_keccak ex_wshash ex_sec1 ex_crypto sys_dep wx_all) = Some true.
Proof. split; [|split; [|split]]; vm_compute; reflexivity. Qed.

Definition wx_check (t : wtx) : bool := en_height (we_env (wx_env t)) <? 2 ^ 64.
Lemma wx_heights : forallb (fun t => en_height (tx_env t) <? 2 ^ 64) sys_all = true.
Proof. vm_compute. reflexivity. Qed.
Lemma wx_keys : Forall (fun t => exists h, tx_env t = sys_env h) sys_all.
Proof.
  unfold sys_all. generalize sys_next as n. intros [o|]; [|constructor].
  unfold sys_txs, sys_setup, sys_voting, sys_routing, sys_proving, sys_change, sys_confirm, sys_rewarding, join.
  repeat (apply Forall_app; split); repeat (constructor; [eexists; reflexivity|]); try constructor.
Qed.
Lemma wx_proper : Forall proper_tx wx_all.
Proof.
  apply Forall_app. split.
  - apply Forall_fmap, Forall_forall. intros t Ht. pose proof wx_keys as Hk. rewrite Forall_forall in Hk. destruct (Hk _ Ht) as [h Hh].
    pose proof wx_heights as Hb. rewrite forallb_forall in Hb. apply elem_of_list_In, Hb, N.ltb_lt in Ht.
    split; cbn; [exact Ht|]. rewrite Hh. cbn. discriminate.
  - repeat (constructor; [split; [reflexivity|discriminate]|]). constructor.
Qed.
Lemma wx_deployment : proper_deployment sys_dep.
Proof.
  intros a c H. unfold sys_dep in H. apply elem_of_list_to_map_2 in H.
  repeat (apply elem_of_cons in H as [H|H]; [first [discriminate H|injection H as _ ->]|]); [|by apply elem_of_nil in H].
  split; [discriminate|]. split; reflexivity.
Qed.

(** a text that changes the parameters: no rewards at all *)
Definition wx_no_rewards : string :=
  "{" +:+ str "update_params" +:+ ":{" +:+ str "params" +:+ ":{" +:+ str "epoch_duration" +:+ ":" +:+ str "100" +:+ "," +:+
  str "rewards_per_epoch" +:+ ":" +:+ str "0" +:+ "," +:+ str "participation_threshold" +:+ ":[" +:+ str "1" +:+ "," +:+ str "2" +:+ "]}}}".
Definition wx_params (st : chain) : option N := match st !! "rewards" with Some (CRewards s) => Some (rp_rewards (r_params s)) | _ => None end.
Lemma wx_zero : let st := wsysrun ex_keccak ex_wshash ex_sec1 ex_crypto sys_dep in
  wx_params (st wx_all) = Some 60 /\ wx_params (st (wx_all ++ [wx_text "gov" "rewards" wx_no_rewards])) = Some 0.
Proof. split; vm_compute; reflexivity. Qed.
Lemma wx_params_is st n : wx_params st = Some n -> exists s, st !! "rewards" = Some (CRewards s) /\ rp_rewards (r_params s) = n.
Proof.
  unfold wx_params, chain in *. destruct (st !! "rewards") as [[]|]; try discriminate. intros [= <-]. eexists. by split.
Qed.
