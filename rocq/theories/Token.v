(** The ledger and the part of the SPL token program (spl-token 3.3.0) and of
    the Solana runtime that the program relies on.  The token program's source
    is not in /repo; this transcription is part of the trusted base. *)
From Verif Require Import Ints Codec.

(** spl_token::id(), "TokenkegQfeZyiNwAJbNbGKPFXCWuBvf9Ss623VQ5DA" *)
Definition TOKEN_PROGRAM_ID : Z :=
  76442634766951278574851011470472957949510043171089429576505158730255542181126.
(** lib.rs 28: declare_id!, "TBCwReYDDw8SvwVVKJHgatzeXKrLHnaTPyDGwkUoBsq" *)
Definition PROGRAM_ID : Z :=
  78207540261189556422346523756443116391419339524424809391204946714092873495558.
(** The system program owns accounts that do not exist yet. *)
Definition SYSTEM_PROGRAM_ID : Z := 0.

(** spl_token::state::Account *)
Record token_account : Type := mk_token {
  t_mint : Z;
  t_owner : Z;
  t_amount : Z;
  t_delegate : option Z;
  t_delegated_amount : Z;
  t_frozen : bool;
  t_native : bool;
  t_close_authority : option Z
}.

(** spl_token::state::Mint *)
Record mint_account : Type := mk_mint {
  m_authority : option Z;
  m_supply : Z;
  m_decimals : Z;
  m_freeze_authority : option Z
}.

(** Contents of an account.  Initialised token-program data is kept decoded
    (165- and 82-byte encodings, never 324 bytes long); everything else is raw
    bytes. *)
Inductive account_data : Type :=
| DToken (t : token_account)
| DMint (m : mint_account)
| DRaw (bytes : list Z).

Record account : Type := mk_account {
  a_owner : Z;           (* the program owning the account *)
  a_data : account_data
}.

(** The ledger: every address has an account; unused ones are empty and owned by
    the system program.  Lamports are not modelled. *)
Definition world : Type := Z -> account.
Definition empty_account : account := mk_account SYSTEM_PROGRAM_ID (DRaw []).

Definition upd (w : world) (k : Z) (a : account) : world :=
  fun k' => if k' =? k then a else w k'.

(** Raw view of account data, as used by [SwapVersion::unpack].  Decoded
    token-program data has the wrong length for a pool (165 or 82 bytes) and is
    shown as the empty string: reading or writing it as a pool fails as in the
    code, though possibly with another error value. *)
Definition raw_of (d : account_data) : list Z :=
  match d with
  | DRaw l => l
  | _ => []
  end.

Definition optZ_eqb (o : option Z) (k : Z) : bool :=
  match o with Some x => x =? k | None => false end.
Definition is_some {A} (o : option A) : bool :=
  match o with Some _ => true | None => false end.

Definition mem (k : Z) (l : list Z) : bool := existsb (Z.eqb k) l.

(** Multisig::LEN; an authority that is a multisig account needs further signers,
    which the program never passes *)
Definition is_multisig (a : account) : bool :=
  (a_owner a =? TOKEN_PROGRAM_ID) &&
  match a_data a with DRaw l => Nat.eqb (length l) 355 | _ => false end.

(** Processor::validate_owner without multisig signers.  [signed] are the keys
    with signer privilege in the cross-program call. *)
Definition validate_owner (w : world) (signed : list Z) (expected authority : Z) : result unit :=
  do! _ := guard (negb (expected =? authority)) EToken in
  do! _ := guard (is_multisig (w authority)) EToken in
  guard (negb (mem authority signed)) EToken.

Definition get_token (w : world) (k : Z) : result token_account :=
  if a_owner (w k) =? TOKEN_PROGRAM_ID then
    match a_data (w k) with DToken t => Ok t | _ => Err EToken end
  else Err EToken.

Definition get_mint (w : world) (k : Z) : result mint_account :=
  if a_owner (w k) =? TOKEN_PROGRAM_ID then
    match a_data (w k) with DMint m => Ok m | _ => Err EToken end
  else Err EToken.

Definition set_token (w : world) (k : Z) (t : token_account) : world :=
  upd w k (mk_account (a_owner (w k)) (DToken t)).
Definition set_mint (w : world) (k : Z) (m : mint_account) : world :=
  upd w k (mk_account (a_owner (w k)) (DMint m)).

Definition with_amount (t : token_account) (x : Z) : token_account :=
  mk_token (t_mint t) (t_owner t) x (t_delegate t) (t_delegated_amount t)
           (t_frozen t) (t_native t) (t_close_authority t).
Definition with_delegation (t : token_account) (d : option Z) (x : Z) : token_account :=
  mk_token (t_mint t) (t_owner t) (t_amount t) d x
           (t_frozen t) (t_native t) (t_close_authority t).
Definition with_supply (m : mint_account) (x : Z) : mint_account :=
  mk_mint (m_authority m) x (m_decimals m) (m_freeze_authority m).

(** Authorisation of a debit of [amount]: by the delegate within the delegated
    amount (which is reduced), otherwise by the owner. *)
Definition authorize_debit (w : world) (signed : list Z) (t : token_account)
    (authority amount : Z) : result token_account :=
  if optZ_eqb (t_delegate t) authority then
    do! _ := validate_owner w signed authority authority in
    do! _ := guard (t_delegated_amount t <? amount) EToken in
    let rest := t_delegated_amount t - amount in
    Ok (with_delegation t (if rest =? 0 then None else t_delegate t) rest)
  else
    do! _ := validate_owner w signed (t_owner t) authority in
    Ok t.

(** Processor::process_transfer *)
Definition spl_transfer (w : world) (signed : list Z) (source dest authority amount : Z)
    : result world :=
  do! s := get_token w source in
  do! d := get_token w dest in
  do! _ := guard (t_frozen s || t_frozen d) EToken in
  do! _ := guard (t_amount s <? amount) EToken in
  do! _ := guard (negb (t_mint s =? t_mint d)) EToken in
  do! s' := authorize_debit w signed s authority amount in
  if source =? dest then Ok w
  else
    do! _ := guard (u64_max <? t_amount d + amount) EToken in
    let w1 := set_token w source (with_amount s' (t_amount s - amount)) in
    Ok (set_token w1 dest (with_amount d (t_amount d + amount))).

(** Processor::process_mint_to *)
Definition spl_mint_to (w : world) (signed : list Z) (mint dest authority amount : Z)
    : result world :=
  do! d := get_token w dest in
  do! _ := guard (t_frozen d) EToken in
  do! _ := guard (t_native d) EToken in
  do! _ := guard (negb (t_mint d =? mint)) EToken in
  do! m := get_mint w mint in
  do! _ :=
    match m_authority m with
    | Some a => validate_owner w signed a authority
    | None => Err EToken
    end in
  do! _ := guard (u64_max <? t_amount d + amount) EToken in
  do! _ := guard (u64_max <? m_supply m + amount) EToken in
  let w1 := set_token w dest (with_amount d (t_amount d + amount)) in
  Ok (set_mint w1 mint (with_supply m (m_supply m + amount))).

(** Processor::process_burn *)
Definition spl_burn (w : world) (signed : list Z) (source mint authority amount : Z)
    : result world :=
  do! s := get_token w source in
  do! m := get_mint w mint in
  do! _ := guard (t_frozen s) EToken in
  do! _ := guard (t_native s) EToken in
  do! _ := guard (t_amount s <? amount) EToken in
  do! _ := guard (negb (t_mint s =? mint)) EToken in
  do! s' := authorize_debit w signed s authority amount in
  do! _ := guard (m_supply m <? amount) EToken in
  let w1 := set_token w source (with_amount s' (t_amount s - amount)) in
  Ok (set_mint w1 mint (with_supply m (m_supply m - amount))).
