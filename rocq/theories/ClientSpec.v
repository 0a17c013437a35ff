(** What the client library has to get right. *)
From Verif Require Import Ints Fees Codec Token Processor Api Entry Client WireSpec.

(** The instruction was made by one of the six functions of the library. *)
Definition client_made (c : client_instr) : Prop :=
  (exists pool authority a b mint fee dest tp sp f kind p,
     create_init_swap_instruction pool authority a b mint fee dest tp sp f kind p = Some c) \/
  (exists pool authority user src vin vout dst mint fee host sp tp n m,
     swap_instruction pool authority user src vin vout dst mint fee host sp tp n m = Some c) \/
  (exists pool authority user sa sb va vb mint dest sp tp n a b,
     deposit_all_instruction pool authority user sa sb va vb mint dest sp tp n a b = Some c) \/
  (exists pool authority user mint fee src va vb da db sp tp n a b,
     withdraw_all_instruction pool authority user mint fee src va vb da db sp tp n a b = Some c) \/
  (exists pool authority user src va vb mint dest sp tp n m,
     deposit_single_instruction pool authority user src va vb mint dest sp tp n m = Some c) \/
  (exists pool authority user mint fee src va vb dst sp tp n m,
     withdraw_single_instruction pool authority user mint fee src va vb dst sp tp n m = Some c).

(** The call as it would have to be made: the one-byte number of the instruction is
    replaced by the program's 8-byte tag of instruction [i]. *)
Definition retagged (i : instr) (t : transaction) : transaction :=
  mk_transaction (tx_signers t) (tx_writable t) (tx_accounts t) (firstn 8 (wire i) ++ tl (tx_data t)).
