(** Histories of the ledger: instructions of this program and everything else
    that may happen on the chain, restricted only by what the Solana runtime and
    the token program guarantee. *)
From Verif Require Import Ints Fees LinearCurve SwapCurve Codec Token Processor Api.

(** Program-derived addresses.  Assumptions about the hash function and the
    runtime, used as explicit hypotheses:
    - [find] returns an address that [create] reproduces from the bump it found;
    - two different seeds never give the same address. *)
Definition env_ok (e : env) : Prop :=
  (forall k a b, find_pda e k = Some (a, b) -> create_pda e k b = Some a /\ is_u8 b) /\
  (forall k b k' b' a, create_pda e k b = Some a -> create_pda e k' b' = Some a ->
                       k = k' /\ b = b').

Definition is_pda (e : env) (a : Z) : Prop := exists k b, create_pda e k b = Some a.

(** Nobody can sign a transaction (or a call into this program) with an address
    derived from this program. *)
Definition signers_ok (e : env) (signers : list Z) : Prop :=
  forall a, In a signers -> ~ is_pda e a.

(** Contents of accounts are in range. *)
Definition account_wf (a : account) : Prop :=
  match a_data a with
  | DToken t => is_u64 (t_amount t) /\ is_u64 (t_delegated_amount t)
                /\ is_pubkey (t_mint t)
  | DMint m => is_u64 (m_supply m)
  | DRaw l => Forall is_u8 l
  end.
Definition world_wf (w : world) : Prop := forall k, account_wf (w k).

(** A byte string that could be a pool starts with the version number 1
    (state.rs 68-76). *)
Definition versioned (d : account_data) : Prop := exists l, d = DRaw (1 :: l).

(** What other programs, and the token program called without a signature of any
    address derived from this program, can do to one account. *)
Definition external_account_ok (e : env) (a a' : account) : Prop :=
  (* only the owning program changes an account's data; the instructions that
     Anchor adds for the interface description (IDL) work on accounts of this
     program starting with the byte 24, or zeroed ones (Idl.v) *)
  (a_owner a = PROGRAM_ID -> versioned (a_data a) -> a' = a) /\
  (* an account given to this program has zeroed data *)
  (a_owner a' = PROGRAM_ID -> a' = a \/ ~ versioned (a_data a')) /\
  (* a token account without delegate and close authority, owned by a derived
     address, can only receive tokens (or be frozen / thawed) *)
  (forall t, a_owner a = TOKEN_PROGRAM_ID -> a_data a = DToken t ->
     is_pda e (t_owner t) -> t_delegate t = None -> t_close_authority t = None ->
     a_owner a' = TOKEN_PROGRAM_ID /\
     exists amount frozen,
       t_amount t <= amount /\
       a_data a' = DToken (mk_token (t_mint t) (t_owner t) amount None
                                    (t_delegated_amount t) frozen (t_native t) None)) /\
  (* a mint controlled by a derived address can only shrink (burns by holders) *)
  (forall m au, a_owner a = TOKEN_PROGRAM_ID -> a_data a = DMint m ->
     m_authority m = Some au -> is_pda e au -> m_freeze_authority m = None ->
     a_owner a' = TOKEN_PROGRAM_ID /\
     exists supply, supply <= m_supply m /\
       a_data a' = DMint (mk_mint (Some au) supply (m_decimals m) None)).

Definition external_ok (e : env) (w w' : world) : Prop :=
  world_wf w' /\ forall k, external_account_ok e (w k) (w' k).

(** One step of the chain as seen by this program.  A failed instruction has no
    effect (the runtime discards its changes) and is not a step. *)
Inductive event : Type :=
| Instruction (signers : list Z) (i : instr)
| External.

Inductive step (e : env) : world -> event -> world -> Prop :=
| step_instruction : forall w signers i w',
    signers_ok e signers ->
    Forall is_pubkey (instr_accounts i) ->
    exec e signers w i = Ok w' ->
    step e w (Instruction signers i) w'
| step_external : forall w w',
    external_ok e w w' ->
    step e w External w'.

Inductive history (e : env) : world -> list event -> world -> Prop :=
| history_nil : forall w, history e w [] w
| history_cons : forall w ev w1 evs w2,
    step e w ev w1 -> history e w1 evs w2 -> history e w (ev :: evs) w2.

(** A ledger before the first use of the program: no account of this program
    holds a pool. *)
Definition genesis_ok (w : world) : Prop :=
  world_wf w /\
  forall k, a_owner (w k) = PROGRAM_ID -> ~ versioned (a_data (w k)).
