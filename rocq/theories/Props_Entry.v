(** The entry point: C64, C65. *)
From Verif Require Import Tactics Ints Fees SwapCurve Codec Token Processor Api History Entry Spec LedgerSpec CallSpec WireSpec.
From Verif Require Import EntryFacts LedgerExamples.

(** C64.  What a client writes is what the program reads; further bytes are
    ignored. *)
Theorem C64_written_is_read : forall i rest, Forall is_u64 (instr_args i) ->
  decode (instr_accounts i) (wire i ++ rest) = Ok i.
Proof. exact decode_wire. Qed.
Print Assumptions C64_written_is_read.

(** C64.  Nothing else is read as an instruction, and all arguments read are 64-bit
    numbers. *)
Theorem C64_read_was_written : forall accounts data i, Forall is_u8 data -> decode accounts data = Ok i ->
  instr_accounts i = accounts /\ Forall is_u64 (instr_args i) /\ exists rest, data = wire i ++ rest.
Proof. exact wire_decode. Qed.
Print Assumptions C64_read_was_written.
(** A swap of 1000 for at least 2; one byte missing; an unknown tag. *)
Example C64_case :
  let data := [248; 198; 158; 145; 225; 117; 135; 200; 232; 3; 0; 0; 0; 0; 0; 0; 2; 0; 0; 0; 0; 0; 0; 0] in
  decode [1; 2; 3] data = Ok (Swap [1; 2; 3] 1000 2) /\
  decode [1; 2; 3] (data ++ [7]) = Ok (Swap [1; 2; 3] 1000 2) /\
  decode [1; 2; 3] (removelast data) = Err ERuntime /\
  decode [1; 2; 3] (247 :: tl data) = Err ERuntime /\
  decode [1; 2; 3] (firstn 7 data) = Err ERuntime.
Proof. vm_compute. repeat split; reflexivity. Qed.

(** C64.  A call of the program succeeds exactly when its data is an instruction,
    the accounts the instruction may change are writable, and the instruction
    succeeds. *)
Theorem C64_entry_exactly : forall e w t w', Forall is_u8 (tx_data t) ->
  entry e w t = Ok w' <->
  exists i rest, tx_data t = wire i ++ rest /\ tx_accounts t = instr_accounts i /\
    incl (must_write i) (tx_writable t) /\ exec e (tx_signers t) w i = Ok w'.
Proof. exact entry_exact. Qed.
Print Assumptions C64_entry_exactly.
(** All six token accounts of a swap have to be writable, even the fee account (103)
    of a pool without fees. *)
Example C64_case_entry :
  let data := [248; 198; 158; 145; 225; 117; 135; 200; 101; 0; 0; 0; 0; 0; 0; 0; 2; 0; 0; 0; 0; 0; 0; 0] in
  let accounts := [100; auth 100; 901; 111; 101; 102; 112; 203; 103; TOKEN_PROGRAM_ID] in
  let go signers writable :=
    match entry ex_env ex_w2 (mk_transaction signers writable accounts data) with Ok _ => true | Err _ => false end in
  go [901] [111; 101; 102; 112; 203; 103] = true /\ go [901] [111; 101; 102; 112; 203] = false /\
  go [900] [111; 101; 102; 112; 203; 103] = false.
Proof. vm_compute. repeat split; reflexivity. Qed.

(** C65.  An account changes only if the caller marked it writable, so the runtime
    never has to undo an instruction for writing to a read-only account. *)
Theorem C65_writes_only_writable : forall e w t w' k, Forall is_u8 (tx_data t) -> world_wf w ->
  entry e w t = Ok w' -> w' k <> w k -> In k (tx_writable t).
Proof. exact entry_writes. Qed.
Print Assumptions C65_writes_only_writable.

(** C65.  All effects of a successful call come from calls of the token program,
    signed by the caller's signers and one address derived for the named pool; these
    ask write access only to accounts the caller marked writable.  Besides, only the
    pool account itself may be written, if it is writable. *)
Theorem C65_calls_only_writable : forall e w t w', Forall is_u8 (tx_data t) -> world_wf w ->
  entry e w t = Ok w' ->
  exists authority pool bump calls w1,
    create_pda e pool bump = Some authority /\ In pool (tx_accounts t) /\
    calls_ok (authority :: tx_signers t) w calls w1 /\
    (forall c k, In c calls -> In k (call_writes c) -> In k (tx_writable t)) /\
    (forall k, w' k = w1 k \/ k = pool /\ In pool (tx_writable t)).
Proof. exact entry_calls. Qed.
Print Assumptions C65_calls_only_writable.
(** Creating a pool changes the pool account (100), its mint (203) and the account
    receiving the first pool tokens (104), and needs write access to no other. *)
Example C65_case :
  let data := [216; 58; 55; 98; 142; 240; 233; 224; 1; 0; 0; 0; 0; 0; 0; 0; 2; 0; 0; 0; 0; 0; 0; 0;
               50; 0; 0; 0; 0; 0; 0; 0; 1; 0; 0; 0; 0; 0; 0; 0] in
  let accounts := [100; auth 100; 101; 102; 203; 103; 104; TOKEN_PROGRAM_ID] in
  let go writable := bals (entry ex_env ex_w0 (mk_transaction [100] writable accounts data)) [203; 104] in
  go [100; 203; 104] = [1000000000; 1000000000] /\ go [203; 104] = [] /\ go [100; 203] = [].
Proof. vm_compute. repeat split; reflexivity. Qed.
