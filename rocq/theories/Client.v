(** The client library in /repo/app/src: index.ts, layout.ts and util/account.ts.

    Of the libraries it uses, the following is part of the trusted base: [BN.toArray]
    gives the bytes of the magnitude, most significant first, without leading zeros
    and at least one; [buffer-layout]'s [u8], [blob] and [nu64] read and write 1, [n]
    and 8 bytes, the last in little-endian order; [slice] of a [Buffer] stops at its
    end, while [readUIntLE] beyond the end throws.  An assertion or exception is
    [None].  JavaScript numbers are integers here. *)
From Coq Require Import String.
From Verif Require Import Ints Fees Codec Token Processor Api Entry Base58.

(** index.ts 18-20 *)
Definition TOKEN_SWAP_PROGRAM_ID : Z := base58 "SwaPpA9LAaLfeLi3a68M4DjnLqgtticKg6CnyNwgAC8".

(** [BN.toArray().reverse()] *)
Fixpoint digits256 (fuel : nat) (x : Z) : list Z :=
  match fuel with
  | O => []
  | S n => if x <? 256 then [x] else x mod 256 :: digits256 n (x / 256)
  end.
Definition bn_bytes (x : Z) : list Z := digits256 (S (Z.to_nat (Z.log2 (Z.abs x)))) (Z.abs x).

(** index.ts 29-40 *)
Definition to_buffer (x : Z) : option (list Z) :=
  let b := bn_bytes x in
  if Nat.eqb (length b) 8 then Some b
  else if Nat.ltb (length b) 8 then Some (b ++ repeat 0 (8 - length b))
  else None.

(** index.ts 45-54: the bytes in reverse order, read as one hexadecimal number *)
Definition from_buffer (b : list Z) : option Z :=
  if Nat.eqb (length b) 8 then Some (fold_left (fun acc i => 256 * acc + i) (rev b) 0) else None.

Definition bind_opt {A B} (o : option A) (f : A -> option B) : option B :=
  match o with Some x => f x | None => None end.
Notation "'let*' x := o 'in' k" := (bind_opt o (fun x => k)) (at level 200, x name, o at level 100, k at level 200).

(** Entries of [keys], and [TransactionInstruction] *)
Record key_meta : Type := mk_key { pubkey : Z; is_signer : bool; is_writable : bool }.
Record client_instr : Type := mk_client_instr {
  ci_keys : list key_meta;
  ci_program : Z;
  ci_data : list Z
}.
Definition ro (k : Z) : key_meta := mk_key k false false.
Definition rw (k : Z) : key_meta := mk_key k false true.
Definition sg (k : Z) : key_meta := mk_key k true false.

(** index.ts 173-249 *)
Definition create_init_swap_instruction
    (token_swap authority token_a token_b token_pool fee_account token_account_pool token_program swap_program : Z)
    (f : fees) (curve_type curve_parameters : Z) : option client_instr :=
  let* p := to_buffer curve_parameters in
  Some (mk_client_instr
    [rw token_swap; ro authority; ro token_a; ro token_b; rw token_pool; ro fee_account;
     rw token_account_pool; ro token_program]
    swap_program
    ([0] ++ to_le 8 (trade_fee_num f) ++ to_le 8 (trade_fee_den f) ++
     to_le 8 (owner_trade_fee_num f) ++ to_le 8 (owner_trade_fee_den f) ++
     to_le 8 (owner_withdraw_fee_num f) ++ to_le 8 (owner_withdraw_fee_den f) ++
     to_le 8 (host_fee_num f) ++ to_le 8 (host_fee_den f) ++ [curve_type] ++ p ++ repeat 0 24)).

(** index.ts 491-543 *)
Definition swap_instruction
    (token_swap authority user_transfer_authority user_source pool_source pool_destination user_destination
     pool_mint fee_account : Z) (host_fee_account : option Z) (swap_program token_program : Z)
    (amount_in minimum_amount_out : Z) : option client_instr :=
  let* a := to_buffer amount_in in
  let* m := to_buffer minimum_amount_out in
  Some (mk_client_instr
    ([ro token_swap; ro authority; sg user_transfer_authority; rw user_source; rw pool_source;
      rw pool_destination; rw user_destination; rw pool_mint; rw fee_account; ro token_program] ++
     match host_fee_account with Some h => [rw h] | None => [] end)
    swap_program ([1] ++ a ++ m)).

(** index.ts 590-641 *)
Definition deposit_all_instruction
    (token_swap authority user_transfer_authority source_a source_b into_a into_b pool_token pool_account
     swap_program token_program : Z) (pool_token_amount maximum_token_a maximum_token_b : Z) : option client_instr :=
  let* n := to_buffer pool_token_amount in
  let* a := to_buffer maximum_token_a in
  let* b := to_buffer maximum_token_b in
  Some (mk_client_instr
    [ro token_swap; ro authority; sg user_transfer_authority; rw source_a; rw source_b; rw into_a; rw into_b;
     rw pool_token; rw pool_account; ro token_program]
    swap_program ([2] ++ n ++ a ++ b)).

(** index.ts 690-743 *)
Definition withdraw_all_instruction
    (token_swap authority user_transfer_authority pool_mint fee_account source_pool_account from_a from_b
     user_account_a user_account_b swap_program token_program : Z)
    (pool_token_amount minimum_token_a minimum_token_b : Z) : option client_instr :=
  let* n := to_buffer pool_token_amount in
  let* a := to_buffer minimum_token_a in
  let* b := to_buffer minimum_token_b in
  Some (mk_client_instr
    [ro token_swap; ro authority; sg user_transfer_authority; rw pool_mint; rw source_pool_account; rw from_a;
     rw from_b; rw user_account_a; rw user_account_b; rw fee_account; ro token_program]
    swap_program ([3] ++ n ++ a ++ b)).

(** index.ts 784-832 *)
Definition deposit_single_instruction
    (token_swap authority user_transfer_authority source into_a into_b pool_token pool_account
     swap_program token_program : Z) (source_token_amount minimum_pool_token_amount : Z) : option client_instr :=
  let* a := to_buffer source_token_amount in
  let* m := to_buffer minimum_pool_token_amount in
  Some (mk_client_instr
    [ro token_swap; ro authority; sg user_transfer_authority; rw source; rw into_a; rw into_b; rw pool_token;
     rw pool_account; ro token_program]
    swap_program ([4] ++ a ++ m)).

(** index.ts 875-927 *)
Definition withdraw_single_instruction
    (token_swap authority user_transfer_authority pool_mint fee_account source_pool_account from_a from_b
     user_account swap_program token_program : Z)
    (destination_token_amount maximum_pool_token_amount : Z) : option client_instr :=
  let* a := to_buffer destination_token_amount in
  let* m := to_buffer maximum_pool_token_amount in
  Some (mk_client_instr
    [ro token_swap; ro authority; sg user_transfer_authority; rw pool_mint; rw source_pool_account; rw from_a;
     rw from_b; rw user_account; rw fee_account; ro token_program]
    swap_program ([5] ++ a ++ m)).

(** index.ts 57-78: [TokenSwapLayout], the offsets being sums of the spans *)
Definition LAYOUT_SPAN : nat := 3 + 7 * 32 + 8 * 8 + 1 + 32.

(** index.ts 89-158; [authority] and the fields decoded from the account *)
Record token_swap : Type := mk_token_swap {
  ts_address : Z;
  ts_program : Z;
  ts_token_program : Z;
  ts_pool_token : Z;
  ts_fee_account : Z;
  ts_authority : Z;
  ts_token_a : Z;
  ts_token_b : Z;
  ts_mint_a : Z;
  ts_mint_b : Z;
  ts_fees : fees;
  ts_curve_type : Z
}.

(** util/account.ts 4-19 and index.ts 251-325.  [getAccountInfo] gives [null] for an
    unused address, which has the wrong owner in this model. *)
Definition load_token_swap (e : env) (w : world) (address program : Z) : option token_swap :=
  if negb (a_owner (w address) =? program) then None
  else
    let data := raw_of (a_data (w address)) in
    let key o := from_le (slice o 32 data) in
    let fee o := from_buffer (slice o 8 data) in
    if Nat.ltb (length data) 292 then None
    else if nth 1 data 0 =? 0 then None
    else
      let* authority := match find_pda e address with Some (a, _) => Some a | None => None end in
      let* f1 := fee 227%nat in let* f2 := fee 235%nat in
      let* f3 := fee 243%nat in let* f4 := fee 251%nat in
      let* f5 := fee 259%nat in let* f6 := fee 267%nat in
      let* f7 := fee 275%nat in let* f8 := fee 283%nat in
      Some (mk_token_swap address program (key 3%nat) (key 99%nat) (key 195%nat) authority
              (key 35%nat) (key 67%nat) (key 131%nat) (key 163%nat)
              (mk_fees f1 f2 f3 f4 f5 f6 f7 f8) (nth 291 data 0)).

(** index.ts 80-84 *)
Definition CURVE_TYPES : list Z := [0; 1; 3].

(** The methods of [TokenSwap]: index.ts 455-489, 555-588, 654-688, 753-782, 843-873.
    The payer signs and pays; the other signer is the transfer authority. *)
Definition ts_swap (ts : token_swap) (user_source pool_source pool_destination user_destination : Z)
    (host : option Z) (user : Z) (amount_in minimum_amount_out : Z) : option client_instr :=
  swap_instruction (ts_address ts) (ts_authority ts) user user_source pool_source pool_destination user_destination
    (ts_pool_token ts) (ts_fee_account ts) host (ts_program ts) (ts_token_program ts) amount_in minimum_amount_out.
Definition ts_deposit_all (ts : token_swap) (user_a user_b pool_account user n a b : Z) : option client_instr :=
  deposit_all_instruction (ts_address ts) (ts_authority ts) user user_a user_b (ts_token_a ts) (ts_token_b ts)
    (ts_pool_token ts) pool_account (ts_program ts) (ts_token_program ts) n a b.
Definition ts_withdraw_all (ts : token_swap) (user_a user_b pool_account user n a b : Z) : option client_instr :=
  withdraw_all_instruction (ts_address ts) (ts_authority ts) user (ts_pool_token ts) (ts_fee_account ts) pool_account
    (ts_token_a ts) (ts_token_b ts) user_a user_b (ts_program ts) (ts_token_program ts) n a b.
Definition ts_deposit_single (ts : token_swap) (user_account pool_account user n m : Z) : option client_instr :=
  deposit_single_instruction (ts_address ts) (ts_authority ts) user user_account (ts_token_a ts) (ts_token_b ts)
    (ts_pool_token ts) pool_account (ts_program ts) (ts_token_program ts) n m.
Definition ts_withdraw_single (ts : token_swap) (user_account pool_account user n m : Z) : option client_instr :=
  withdraw_single_instruction (ts_address ts) (ts_authority ts) user (ts_pool_token ts) (ts_fee_account ts)
    pool_account (ts_token_a ts) (ts_token_b ts) user_account (ts_program ts) (ts_token_program ts) n m.

(** The call of the program resulting from an instruction: flags given anywhere in the
    transaction hold for the whole of it.  The payer signs, and its account is writable;
    [others] are keys that other instructions of the transaction need as signers
    (index.ts 399-438: the new pool account). *)
Definition call_of (payer : Z) (others : list Z) (i : client_instr) : transaction :=
  mk_transaction (payer :: others ++ map pubkey (filter is_signer (ci_keys i)))
    (payer :: map pubkey (filter is_writable (ci_keys i)))
    (map pubkey (ci_keys i)) (ci_data i).
