(** An account that the client library takes for a pool: the account with the
    interface description that Anchor's own instructions create under the program. *)
From Coq Require Import String.
From Verif Require Import Ints Tactics Fees SwapCurve Codec Token Processor Api History Sha256 Entry Client
  Spec LedgerSpec ClientSpec LedgerExamples.

(** [IdlAccount] of anchor-lang 0.20.1: tag, authority, length of the data, data *)
Definition idl_bytes : list Z :=
  firstn 8 (sha256 (bytes_of "internal:IdlAccount")) ++ to_le 32 900 ++ [44; 1; 0; 0] ++ repeat 7 300.
Definition idl_world : world := of_list [(500, mk_account PROGRAM_ID (DRaw idl_bytes))].

Lemma idl_tag : firstn 8 idl_bytes = [24; 70; 98; 191; 58; 144; 123; 158].
Proof. vm_compute. reflexivity. Qed.
Lemma idl_not_versioned : ~ versioned (DRaw idl_bytes).
Proof. intros (l & H). vm_compute in H. discriminate. Qed.
Lemma u8b_all l : forallb (fun b => (0 <=? b) && (b <? 256)) l = true -> Forall is_u8 l.
Proof.
  intros H. apply Forall_forall. intros x Hx. rewrite forallb_forall in H. specialize (H x Hx).
  apply andb_true_iff in H. destruct H as [A B]. apply Z.leb_le in A. apply Z.ltb_lt in B. unfold is_u8. lia.
Qed.
Lemma idl_reachable : reachable ex_env idl_world.
Proof.
  exists idl_world, []. split; [| constructor]. split.
  - intros k. unfold idl_world, of_list. destruct (k =? 500); [| constructor].
    unfold account_wf. cbn [a_data]. apply u8b_all. vm_compute. reflexivity.
  - intros k H. unfold idl_world, of_list in *. destruct (k =? 500); [exact idl_not_versioned | discriminate H].
Qed.
Lemma idl_no_pool s : ~ pool_at idl_world 500 s.
Proof. intros (_ & H). vm_compute in H. discriminate. Qed.
Lemma idl_loaded : exists ts, load_token_swap ex_env idl_world 500 PROGRAM_ID = Some ts.
Proof. eexists. vm_compute. reflexivity. Qed.

Lemma load_only_pools_refuted : exists e w k ts, env_ok e /\ reachable e w /\
  load_token_swap e w k PROGRAM_ID = Some ts /\ forall s, ~ pool_at w k s.
Proof.
  destruct idl_loaded as (ts & H). exists ex_env, idl_world, 500, ts.
  split; [exact ex_env_ok |]. split; [exact idl_reachable |]. split; [exact H | exact idl_no_pool].
Qed.

(** ** A swap that the program would have accepted *)
Lemma client_swap_refuted : exists e w payer user c i w', env_ok e /\
  swap_instruction 100 (auth 100) user 111 101 102 112 203 103 None PROGRAM_ID TOKEN_PROGRAM_ID 600 2 = Some c /\
  entry e w (retagged i (call_of payer [] c)) = Ok w' /\
  entry e w (call_of payer [] c) = Err ERuntime.
Proof.
  set (i := Swap [100; auth 100; 901; 111; 101; 102; 112; 203; 103; TOKEN_PROGRAM_ID] 600 2).
  set (c := match swap_instruction 100 (auth 100) 901 111 101 102 112 203 103 None PROGRAM_ID TOKEN_PROGRAM_ID 600 2 with
            | Some c => c | None => mk_client_instr [] 0 [] end).
  assert (S : exists w', entry ex_env ex_w2 (retagged i (call_of 902 [] c)) = Ok w').
  { destruct (entry ex_env ex_w2 (retagged i (call_of 902 [] c))) as [w' |] eqn:E; [now exists w' |].
    assert (F : match entry ex_env ex_w2 (retagged i (call_of 902 [] c)) with Ok _ => true | Err _ => false end = true)
      by (vm_compute; reflexivity). rewrite E in F. discriminate. }
  destruct S as (w' & S). exists ex_env, ex_w2, 902, 901, c, i, w'.
  split; [exact ex_env_ok |]. split; [vm_compute; reflexivity |]. split; [exact S | vm_compute; reflexivity].
Qed.

(** ** A pool the client creates with the wrong price *)
Lemma client_price_refuted : exists pool authority a b mint fee dest f p c,
  is_u64 p /\ fees_wf f /\
  create_init_swap_instruction pool authority a b mint fee dest TOKEN_PROGRAM_ID PROGRAM_ID f 1 p = Some c /\
  exists i q, decode (map pubkey (ci_keys c)) (tx_data (retagged i (call_of 902 [pool] c))) = Ok i /\
    i = InitConstantPrice [pool; authority; a; b; mint; fee; dest; TOKEN_PROGRAM_ID] f q /\ q <> p.
Proof.
  exists 300, (auth 300), 301, 302, 403, 303, 304, ex_fees, 3.
  eexists. split; [unfold is_u64, u64_max; lia |]. split; [unfold fees_wf, is_u64, u64_max; vm_compute; repeat split; discriminate |].
  split; [vm_compute; reflexivity |].
  exists (InitConstantPrice [300; auth 300; 301; 302; 403; 303; 304; TOKEN_PROGRAM_ID] ex_fees 769), 769.
  split; [vm_compute; reflexivity |]. split; [reflexivity | discriminate].
Qed.
