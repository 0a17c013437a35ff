(** The instructions for interface descriptions that Anchor adds to the program (C112 - C115). *)
From Coq Require Import String.
From Verif Require Import Ints Tactics Fees LinearCurve SwapCurve Codec Token Processor Api History Sha256 Entry Idl
  Spec LedgerSpec WireSpec LedgerExamples HistoryExamples IdlSpec IdlFacts IdlExact IdlWitness.

(** C112.  Whatever is sent to the program, the instructions for descriptions included,
    is a step of the histories of this development; so all that is proved of reachable
    ledgers goes on holding. *)
Theorem C112_steps : forall e ie w t w',
  world_wf w -> Forall is_u8 (tx_data t) -> Forall is_pubkey (tx_accounts t) ->
  signers_ok e (tx_signers t) -> idl_checked ie = true -> idl_env_ok ie (tx_signers t) w ->
  full_entry e ie w t = Ok w' ->
  (exists i, step e w (Instruction (tx_signers t) i) w' /\ tx_accounts t = instr_accounts i) \/ step e w External w'.
Proof. exact full_entry_step. Qed.
Print Assumptions C112_steps.

Theorem C112_reachable : forall e ie w t w',
  env_ok e -> reachable e w -> Forall is_u8 (tx_data t) -> Forall is_pubkey (tx_accounts t) ->
  signers_ok e (tx_signers t) -> idl_checked ie = true -> idl_env_ok ie (tx_signers t) w ->
  full_entry e ie w t = Ok w' -> reachable e w'.
Proof. exact full_reachable. Qed.
Print Assumptions C112_reachable.

(** They leave pools, token accounts and mints as they are. *)
Theorem C112_untouched : forall ie signers writable accounts w i w' k,
  world_wf w -> idl_checked ie = true -> idl_env_ok ie signers w ->
  idl_exec ie signers writable accounts w i = Ok w' ->
  a_owner (w k) = TOKEN_PROGRAM_ID \/ (exists s, pool_at w k s) -> w' k = w k.
Proof. exact idl_pools. Qed.
Print Assumptions C112_untouched.

(** All of it rests on the check that the fourth account of [Create] is the system
    program.  Without it, the address of the description moves up one position, and
    any pool can be given in its place: user 901 has the description created and the
    pool 100 written over. *)
Theorem C112_unchecked_refuted : exists e ie signers writable accounts w w' k s, env_ok e /\ reachable e w /\
  idl_env_ok ie signers w /\ pool_at w k s /\ ~ In k signers /\
  idl_exec ie signers writable accounts w (IdlCreate 0) = Ok w' /\ forall s', ~ pool_at w' k s'.
Proof. exact pool_lost. Qed.
Print Assumptions C112_unchecked_refuted.

(** The same call with the check fails; a proper one beside the pools 100 and 300 works. *)
Example C112_case : let bad := [901; 100; 600; 601; PROGRAM_ID] in let good := [901; 600; 601; SYSTEM_PROGRAM_ID; PROGRAM_ID] in
  idl_exec ie1 [901] [600; 100; 901] bad ex_w2 (IdlCreate 0) = Err EIncorrectProgramId /\
  exists w', idl_exec ie1 [901] [600; 901] good ex_w2 (IdlCreate 0) = Ok w' /\
    pool_at w' 100 ex_pool1 /\ length (raw_of (a_data (w' 600))) = 44%nat.
Proof.
  cbv zeta. split; [vm_compute; reflexivity |].
  exists (after (idl_exec ie1 [901] [600; 901] [901; 600; 601; SYSTEM_PROGRAM_ID; PROGRAM_ID] ex_w2 (IdlCreate 0))).
  split; [| split; [split |]]; vm_compute; reflexivity.
Qed.

(** These instructions are told from the others by the digest of a text, in reverse; an
    account with a description by that of another. *)
Theorem C112_tag : IDL_TAG = rev (firstn 8 (sha256 (bytes_of "anchor:idl"))) /\
  firstn 8 (sha256 (bytes_of "internal:IdlAccount")) = IDL_ACCOUNT_TAG.
Proof. exact tag_value. Qed.
Print Assumptions C112_tag.

(** C113.  A description changes only with the signature of its authority, or when its own
    key signs for the creation of a pool in its place. *)
Theorem C113_authority : forall e ie w t w' k au data,
  env_ok e -> world_wf w -> Forall is_u8 (tx_data t) -> Forall is_pubkey (tx_accounts t) ->
  idl_checked ie = true -> idl_env_ok ie (tx_signers t) w ->
  described w k au data -> full_entry e ie w t = Ok w' ->
  w' k = w k \/ In au (tx_signers t) \/ In k (tx_signers t) /\ exists s, pool_at w' k s.
Proof. exact authority_only. Qed.
Print Assumptions C113_authority.

(** What the instructions do to it. *)
Theorem C113_write : forall ie signers writable w k au rest d w',
  world_wf w -> idl_exec ie signers writable (k :: au :: rest) w (IdlWrite d) = Ok w' ->
  exists data, described w k au data /\ In au signers /\ described w' k au (data ++ d) /\ forall k', k' <> k -> w' k' = w k'.
Proof. exact write_effect. Qed.
Print Assumptions C113_write.

Theorem C113_set_authority : forall ie signers writable w k au rest n w',
  world_wf w -> is_pubkey n -> idl_exec ie signers writable (k :: au :: rest) w (IdlSetAuthority n) = Ok w' ->
  exists data, described w k au data /\ In au signers /\ described w' k n data /\ forall k', k' <> k -> w' k' = w k'.
Proof. exact set_authority_effect. Qed.
Print Assumptions C113_set_authority.

Theorem C113_set_buffer : forall ie signers writable w b k au rest w',
  world_wf w -> b <> k -> idl_exec ie signers writable (b :: k :: au :: rest) w IdlSetBuffer = Ok w' ->
  exists data old, described w b au data /\ described w k au old /\ In au signers /\
    described w' b au data /\ described w' k au data /\ forall k', k' <> b -> k' <> k -> w' k' = w k'.
Proof. exact set_buffer_effect. Qed.
Print Assumptions C113_set_buffer.

Theorem C113_create_buffer : forall ie signers writable w b au rest w',
  is_pubkey au -> idl_exec ie signers writable (b :: au :: rest) w IdlCreateBuffer = Ok w' ->
  a_owner (w b) = PROGRAM_ID /\ In au signers /\ (exists data, described w' b au data) /\ forall k', k' <> b -> w' k' = w k'.
Proof. exact create_buffer_effect. Qed.
Print Assumptions C113_create_buffer.

(** When each of the five succeeds, exactly. *)
Theorem C113_exact : forall ie signers writable accounts w i,
  world_wf w -> idl_checked ie = true -> idl_env_ok ie signers w ->
  (exists w', idl_exec ie signers writable accounts w i = Ok w') <-> idl_asks ie signers writable accounts w i.
Proof. exact idl_exact. Qed.
Print Assumptions C113_exact.

(** Twenty bytes fit into the description of the next example, and no more; the account must
    be writable. *)
Example C113_exact_case :
  (exists w', idl_exec ie1 [901] [600] [600; 901] id_w2 (IdlWrite (repeat 5 17)) = Ok w') /\
  idl_exec ie1 [901] [600] [600; 901] id_w2 (IdlWrite (repeat 5 18)) = Err ERuntime /\
  idl_exec ie1 [901] [] [600; 901] id_w2 (IdlWrite (repeat 5 17)) = Err ERuntime.
Proof.
  split; [| split; vm_compute; reflexivity].
  exists (after (idl_exec ie1 [901] [600] [600; 901] id_w2 (IdlWrite (repeat 5 17)))).
  destruct (idl_exec _ _ _ _ _ _) eqn:E; [reflexivity |]. exfalso. revert E. vm_compute. discriminate.
Qed.

(** The life of a description: created, written to twice, handed over, replaced from
    a buffer.  User 902 cannot write to it. *)
Example C113_case :
  idl_load id_w1 600 = Ok (mk_idl 901 []) /\ idl_load id_w2 600 = Ok (mk_idl 901 [7; 8; 9]) /\
  idl_load id_w3 600 = Ok (mk_idl 901 [7; 8; 9; 10]) /\ idl_load id_w4 600 = Ok (mk_idl 900 [7; 8; 9; 10]) /\
  idl_load id_w5 700 = Ok (mk_idl 900 []) /\ idl_load id_w6 700 = Ok (mk_idl 900 [5; 6]) /\
  idl_load id_w7 600 = Ok (mk_idl 900 [5; 6]) /\ idl_load id_w7 700 = Ok (mk_idl 900 [5; 6]) /\
  idl_exec ie1 [902] [600] [600; 902] id_w7 (IdlWrite [1]) = Err ERuntime /\
  idl_exec ie1 [902] [600] [600; 900] id_w7 (IdlWrite [1]) = Err EMissingRequiredSignature.
Proof. repeat split; vm_compute; reflexivity. Qed.

(** C114, that the description of the program can only be created with the signature of some
    key, such as that of its deployer: false for every key. *)
Theorem C114_deployer_refuted : forall d, exists ie signers writable accounts w n w',
  ~ In d signers /\ idl_exec ie signers writable accounts w (IdlCreate n) = Ok w' /\ a_owner (w (idl_address ie)) = SYSTEM_PROGRAM_ID /\
  exists au, au <> d /\ described w' (idl_address ie) au [].
Proof. exact no_deployer. Qed.
Print Assumptions C114_deployer_refuted.

(** Anyone can who comes first, and is its authority from then on (C113). *)
Theorem C114_anyone : forall ie signers writable w user n,
  is_pubkey user -> 0 <= n <= 10196 -> w (idl_address ie) = empty_account -> In user signers -> In (idl_address ie) writable ->
  exists w', idl_exec ie signers writable [user; idl_address ie; idl_base ie; SYSTEM_PROGRAM_ID; PROGRAM_ID] w (IdlCreate n) = Ok w' /\
    described w' (idl_address ie) user [] /\ forall k, k <> idl_address ie -> w' k = w k.
Proof. exact create_works. Qed.
Print Assumptions C114_anyone.

(** User 901, who has nothing to do with the program, creates it; user 900 is too late. *)
Example C114_case : let accounts u := [u; 600; 601; SYSTEM_PROGRAM_ID; PROGRAM_ID] in
  idl_load id_w1 600 = Ok (mk_idl 901 []) /\
  idl_exec ie1 [900] [600; 900] (accounts 900) id_w1 (IdlCreate 20) = Err ERuntime /\
  idl_exec ie1 [901] [600; 901] (accounts 901) id_w0 (IdlCreate 10197) = Err ERuntime.
Proof. repeat split; vm_compute; reflexivity. Qed.

(** C115.  None of these instructions spoils the account set aside for a pool: the creation
    of a pool that would have worked before, works after. *)
Theorem C115_unspoiled : forall e ie signers0 writable accounts w i0 w' signers i,
  env_ok e -> world_wf w -> idl_instr_wf i0 -> Forall is_pubkey accounts ->
  idl_checked ie = true -> idl_env_ok ie signers0 w -> idl_exec ie signers0 writable accounts w i0 = Ok w' -> creates i ->
  (exists w1, exec e signers w i = Ok w1) -> exists w1, exec e signers w' i = Ok w1.
Proof. exact create_survives. Qed.
Print Assumptions C115_unspoiled.

(** User 902 makes the zeroed account 100 a buffer of their own, without its signature; the
    pool is created there all the same. *)
Example C115_case : exists w' w'', idl_exec ie1 [902] [100] [100; 902; 0] ex_w0 IdlCreateBuffer = Ok w' /\
  idl_load w' 100 = Ok (mk_idl 902 []) /\ exec ex_env [100] w' ex_init1 = Ok w'' /\ pool_at w'' 100 ex_pool1.
Proof.
  exists (after (idl_exec ie1 [902] [100] [100; 902; 0] ex_w0 IdlCreateBuffer)).
  exists (run1 [100] (after (idl_exec ie1 [902] [100] [100; 902; 0] ex_w0 IdlCreateBuffer)) ex_init1).
  split; [vm_compute; reflexivity |]. split; [vm_compute; reflexivity |]. split; [| split; vm_compute; reflexivity].
  unfold run1. destruct (exec _ _ _ _) eqn:E; [reflexivity |]. exfalso. revert E. vm_compute. discriminate.
Qed.
