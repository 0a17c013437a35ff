(** The entry point that Anchor's [#[program]] (lib.rs 30-166) and
    [#[derive(Accounts)]] (instructions/*.rs) macros generate: decoding of the
    instruction data and the checks of account flags.  The expansion of the macros
    (anchor-lang 0.20.1) is not in /repo; this transcription is part of the
    trusted base. *)
From Coq Require Import String Ascii.
From Verif Require Import Ints Fees LinearCurve SwapCurve Codec Token Processor Api Sha256.

(** One call of the program.  The runtime gives every account of the call a signer
    and a writable flag; flags belong to keys, not to positions. *)
Record transaction : Type := mk_transaction {
  tx_signers : list Z;
  tx_writable : list Z;
  tx_accounts : list Z;
  tx_data : list Z
}.

Definition bytes_of (s : string) : list Z :=
  map (fun c => Z.of_N (N_of_ascii c)) (list_ascii_of_string s).

(** Tag of an instruction: the first 8 bytes of the hash of its qualified name. *)
Definition sighash (name : string) : list Z := firstn 8 (sha256 (bytes_of ("global:" ++ name))).

(** The exported functions in the order of lib.rs 38-165: name, number of [u64]
    arguments, and the instruction. *)
Record entry_point : Type := mk_entry {
  ep_tag : list Z;
  ep_args : nat;
  ep_instr : list Z -> list Z -> instr
}.
Definition arg (l : list Z) (n : nat) : Z := nth n l 0.
Definition entry_points : list entry_point :=
  [mk_entry (sighash "initialize_constant_price") 9 (fun acc l =>
     InitConstantPrice acc (mk_fees (arg l 0) (arg l 1) (arg l 2) (arg l 3) (arg l 4) (arg l 5) (arg l 6) (arg l 7))
                       (arg l 8));
   mk_entry (sighash "initialize_linear_price") 4 (fun acc l =>
     InitLinearPrice acc (arg l 0) (arg l 1) (arg l 2) (arg l 3));
   mk_entry (sighash "swap") 2 (fun acc l => Swap acc (arg l 0) (arg l 1));
   mk_entry (sighash "deposit_all_token_types") 3 (fun acc l => DepositAll acc (arg l 0) (arg l 1) (arg l 2));
   mk_entry (sighash "withdraw_all_token_types") 3 (fun acc l => WithdrawAll acc (arg l 0) (arg l 1) (arg l 2));
   mk_entry (sighash "deposit_single_token_type_exact_amount_in") 2 (fun acc l =>
     DepositSingle acc (arg l 0) (arg l 1));
   mk_entry (sighash "withdraw_single_token_type_exact_amount_out") 2 (fun acc l =>
     WithdrawSingle acc (arg l 0) (arg l 1))].

(** Borsh: [n] little-endian 64-bit integers; bytes left over are ignored. *)
Fixpoint read_u64s (n : nat) (l : list Z) : option (list Z) :=
  match n with
  | O => Some []
  | S n' =>
      if Nat.ltb (length l) 8 then None
      else match read_u64s n' (skipn 8 l) with
           | Some r => Some (from_le (firstn 8 l) :: r)
           | None => None
           end
  end.

(** Dispatch on the first 8 bytes.  (Anchor's own IDL instructions have a tag of
    their own; see Idl.v.) *)
Definition decode (accounts data : list Z) : result instr :=
  if Nat.ltb (length data) 8 then Err ERuntime
  else match find (fun ep => bytes_eqb (ep_tag ep) (firstn 8 data)) entry_points with
       | None => Err ERuntime
       | Some ep =>
           match read_u64s (ep_args ep) (skipn 8 data) with
           | None => Err ERuntime
           | Some args => Ok (ep_instr ep accounts args)
           end
       end.

(** Number of accounts, and positions of the accounts marked [mut], in
    instructions/initialize.rs 13-37, swap.rs 6-35, deposit_all_token_types.rs
    6-34, withdraw_all_token_types.rs 6-37,
    deposit_single_token_type_exact_amount_in.rs 6-31,
    withdraw_single_token_type_exact_amount_out.rs 6-34. *)
Definition account_count (i : instr) : nat :=
  match i with
  | InitConstantPrice _ _ _ | InitLinearPrice _ _ _ _ _ => 8
  | Swap _ _ _ | DepositAll _ _ _ _ | WithdrawSingle _ _ _ => 10
  | WithdrawAll _ _ _ _ => 11
  | DepositSingle _ _ _ => 9
  end.
Definition mut_positions (i : instr) : list nat :=
  match i with
  | InitConstantPrice _ _ _ | InitLinearPrice _ _ _ _ _ => [0; 4; 6]%nat
  | Swap _ _ _ => [3; 4; 5; 6; 7; 8]%nat
  | DepositAll _ _ _ _ => [3; 4; 5; 6; 7; 8]%nat
  | WithdrawAll _ _ _ _ => [3; 4; 5; 6; 7; 8; 9]%nat
  | DepositSingle _ _ _ => [3; 4; 5; 6; 7]%nat
  | WithdrawSingle _ _ _ => [3; 4; 5; 6; 7; 8]%nat
  end.

(** The generated entry point. *)
Definition entry (e : env) (w : world) (t : transaction) : result world :=
  do! i := decode (tx_accounts t) (tx_data t) in
  do! _ := guard (Nat.ltb (length (tx_accounts t)) (account_count i)) ENotEnoughAccountKeys in
  do! _ := guard (negb (forallb (fun n => mem (nth n (tx_accounts t) 0) (tx_writable t)) (mut_positions i)))
                 ERuntime in
  exec e (tx_signers t) w i.
