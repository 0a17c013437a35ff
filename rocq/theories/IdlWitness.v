(** Calls of the instructions for interface descriptions: the whole life of a description,
    and a pool lost if the fourth account of [Create] is not checked (C112 - C115). *)
From Coq Require Import String.
From Verif Require Import Ints Tactics Fees LinearCurve SwapCurve Codec Token Processor Api History Sha256 Entry Idl
  Spec LedgerSpec WireSpec LedgerExamples HistoryFacts HistoryExamples IdlSpec IdlFacts.

Definition ie1 : idl_env := mk_idl_env 600 601 true.
Definition idl_tx (signers writable accounts data : list Z) : transaction :=
  mk_transaction signers writable accounts (IDL_TAG ++ data).
Definition after (r : result world) : world := match r with Ok w => w | Err _ => fun _ => empty_account end.

(** Created by 901 with room for twenty bytes, written to twice, given to 900; a buffer
    made by 900 at 700 from a zeroed account and moved in. *)
Definition id_w0 : world := of_list [(700, zeroed)].
Definition id_t1 := idl_tx [901] [600; 901] [901; 600; 601; SYSTEM_PROGRAM_ID; PROGRAM_ID] (0 :: to_le 8 20).
Definition id_t2 := idl_tx [901] [600] [600; 901] (2 :: to_le 4 3 ++ [7; 8; 9]).
Definition id_t3 := idl_tx [901] [600] [600; 901] (2 :: to_le 4 1 ++ [10]).
Definition id_t4 := idl_tx [901] [600] [600; 901] (4 :: to_le 32 900).
Definition id_t5 := idl_tx [900] [700] [700; 900; 0] [1].
Definition id_t6 := idl_tx [900] [700] [700; 900] (2 :: to_le 4 2 ++ [5; 6]).
Definition id_t7 := idl_tx [900] [600; 700] [700; 600; 900] [3].
Definition id_w1 : world := after (full_entry ex_env ie1 id_w0 id_t1).
Definition id_w2 : world := after (full_entry ex_env ie1 id_w1 id_t2).
Definition id_w3 : world := after (full_entry ex_env ie1 id_w2 id_t3).
Definition id_w4 : world := after (full_entry ex_env ie1 id_w3 id_t4).
Definition id_w5 : world := after (full_entry ex_env ie1 id_w4 id_t5).
Definition id_w6 : world := after (full_entry ex_env ie1 id_w5 id_t6).
Definition id_w7 : world := after (full_entry ex_env ie1 id_w6 id_t7).

(** The pool 100 in the place of the description. *)
Definition id_lost : world := after (idl_exec (mk_idl_env 600 601 false) [901] [600; 100; 901] [901; 100; 600; 601; PROGRAM_ID] ex_w2 (IdlCreate 0)).
Lemma pool_lost : exists e ie signers writable accounts w w' k s, env_ok e /\ reachable e w /\
  idl_env_ok ie signers w /\ pool_at w k s /\ ~ In k signers /\
  idl_exec ie signers writable accounts w (IdlCreate 0) = Ok w' /\ forall s', ~ pool_at w' k s'.
Proof.
  exists ex_env, (mk_idl_env 600 601 false), [901], [600; 100; 901], [901; 100; 600; 601; PROGRAM_ID], ex_w2, id_lost, 100, ex_pool1.
  split; [exact ex_env_ok |]. split; [exact ex_reachable |]. split; [| split; [| split; [| split]]].
  - split; [discriminate |]. split; [discriminate |]. split; [discriminate |].
    split; [cbn [In idl_address]; intros [E | []]; discriminate E |]. split; [cbn [In idl_base]; intros [E | []]; discriminate E |].
    vm_compute. discriminate.
  - split; vm_compute; reflexivity.
  - cbn [In]. intros [E | []]; discriminate E.
  - unfold id_lost. destruct (idl_exec _ _ _ _ _ _) eqn:E; [reflexivity |]. exfalso. revert E. vm_compute. discriminate.
  - intros s' (_ & H). revert H. vm_compute. discriminate.
Qed.

Lemma full_reachable e ie w t w' : env_ok e -> reachable e w -> Forall is_u8 (tx_data t) -> Forall is_pubkey (tx_accounts t) ->
  signers_ok e (tx_signers t) -> idl_checked ie = true -> idl_env_ok ie (tx_signers t) w ->
  full_entry e ie w t = Ok w' -> reachable e w'.
Proof.
  intros He R Hu Hk Hs Hck Ho H. assert (W : world_wf w) by (apply (reachable_inv e); assumption).
  destruct (full_entry_step _ _ _ _ _ W Hu Hk Hs Hck Ho H) as [(i & St & _) | St]; exact (reachable_step _ _ _ _ R St).
Qed.

Lemma no_deployer : forall d, exists ie signers writable accounts w n w',
  ~ In d signers /\ idl_exec ie signers writable accounts w (IdlCreate n) = Ok w' /\ a_owner (w (idl_address ie)) = SYSTEM_PROGRAM_ID /\
  exists au, au <> d /\ described w' (idl_address ie) au [].
Proof.
  intros d. assert (N : exists u, is_pubkey u /\ u <> d) by (destruct (Z.eq_dec d 901) as [-> | N]; [exists 902 | exists 901]; unfold is_pubkey; lia).
  destruct N as (u & Hu & N). destruct (create_works ie1 [u] [600] (fun _ => empty_account) u 20) as (w' & H & D & _);
    [exact Hu | lia | reflexivity | cbn [In]; auto | cbn [In idl_address ie1]; auto |].
  exists ie1, [u], [600], [u; 600; 601; SYSTEM_PROGRAM_ID; PROGRAM_ID], (fun _ => empty_account), 20, w'.
  split; [cbn [In]; intros [E | []]; contradiction |]. split; [exact H |]. split; [reflexivity |]. exists u. split; [exact N | exact D].
Qed.

Lemma tag_value : IDL_TAG = rev (firstn 8 (sha256 (bytes_of "anchor:idl"))) /\ firstn 8 (sha256 (bytes_of "internal:IdlAccount")) = IDL_ACCOUNT_TAG.
Proof. split; vm_compute; reflexivity. Qed.
