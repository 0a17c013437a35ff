(** The C bindings in inc/token-swap.h: C108. *)
From Verif Require Import Ints Tactics Codec Token Processor Api Entry History Spec LedgerSpec WireSpec LedgerExamples HistoryExamples
  CHeader CHeaderFacts.

(** C108.  No instruction of the bindings is ever accepted, whatever its arguments, the
    accounts, the signatures and the bytes the C program leaves undefined. *)
Theorem C108_never_accepted : forall i pad spare e w signers writable accounts,
  entry e w (mk_transaction signers writable accounts (c_bytes i pad spare)) = Err ERuntime.
Proof. exact c_never_accepted. Qed.
Print Assumptions C108_never_accepted.

(** No pool is ever read as one: the tag is neither that of a pool nor that of an
    unallocated account. *)
Theorem C108_never_read : forall e w k s, env_ok e -> reachable e w -> pool_at w k s ->
  c_read (raw_of (a_data (w k))) = COther.
Proof. exact c_never_read. Qed.
Print Assumptions C108_never_read.

(** So the claim is false: here a pool of the example and a trade with it that goes
    through with the program's own instruction data. *)
Theorem C108_bindings_refuted : exists e w k s t w', env_ok e /\ reachable e w /\ pool_at w k s /\
  (forall info, c_read (raw_of (a_data (w k))) <> CInit info) /\
  entry e w t = Ok w' /\
  forall i pad spare, entry e w (mk_transaction (tx_signers t) (tx_writable t) (tx_accounts t) (c_bytes i pad spare)) = Err ERuntime.
Proof. exact c_refuted. Qed.
Print Assumptions C108_bindings_refuted.

(** A swap of 600, with zeroes in the unused bytes; the bindings have no place for the
    least amount out. *)
Example C108_case :
  c_bytes (CSwap 600) (repeat 0 4) (repeat 0 8) = [1; 0; 0; 0; 0; 0; 0; 0; 88; 2; 0; 0; 0; 0; 0; 0; 0; 0; 0; 0; 0; 0; 0; 0] /\
  c_read (raw_of (a_data (ex_w2 100))) = COther /\
  c_read (1 :: repeat 0 119) = CInit (mk_c_info 0 0 0 (mk_c_fee 0 0)) /\
  c_read (repeat 0 120) = CUnallocated.
Proof. vm_compute. repeat split; reflexivity. Qed.
