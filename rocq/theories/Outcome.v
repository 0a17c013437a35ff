(** Result types shared by the whole model.

    - [outcome A] is a Rust [Option<A>] extended with an explicit panic:
      [Val a] = [Some(a)], [Non] = [None], [Panic] = the program aborts.
    - [result A] is a Rust [Result<A, ProgramError>] extended the same way:
      the error type contains [EPanic]. *)
From Coq Require Export ZArith List Bool.
Export ListNotations.
Open Scope Z_scope.

Inductive outcome (A : Type) : Type :=
| Val (a : A)
| Non
| Panic.
Arguments Val {A} a.
Arguments Non {A}.
Arguments Panic {A}.

(** The [?] operator on [Option]. *)
Definition obind {A B} (m : outcome A) (k : A -> outcome B) : outcome B :=
  match m with
  | Val a => k a
  | Non => Non
  | Panic => Panic
  end.

Notation "'let?' x := m 'in' k" := (obind m (fun x => k))
  (at level 200, x pattern, m at level 100, k at level 200, right associativity).

(** error.rs 9-105: [SwapError], in declaration order. *)
Inductive swap_error : Type :=
| AlreadyInUse | InvalidProgramAddress | InvalidOwner | InvalidOutputOwner
| ExpectedMint | ExpectedAccount | EmptySupply | InvalidSupply
| InvalidDelegate | InvalidInput | IncorrectSwapAccount | IncorrectPoolMint
| InvalidOutput | CalculationFailure | InvalidInstruction | RepeatedMint
| ExceededSlippage | InvalidCloseAuthority | InvalidFreezeAuthority
| IncorrectFeeAccount | ZeroTradingTokens | FeeCalculationFailure
| ConversionFailure | InvalidFee | IncorrectTokenProgramId
| UnsupportedCurveType | InvalidCurve | UnsupportedCurveOperation.

(** Program errors: the program's own errors, the generic Solana errors it
    returns, and everything that comes from outside the program (token-program
    failure, missing signature, ...). *)
Inductive error : Type :=
| ESwap (e : swap_error)
| EInvalidAccountData
| EUninitializedAccount
| EInvalidArgument
| EIncorrectProgramId
| EMissingRequiredSignature
| ENotEnoughAccountKeys
| EToken                       (* any error of the token program *)
| ERuntime                     (* any error of the Solana runtime / Anchor *)
| EPanic.                      (* unwrap on None, integer cast panic, ... *)

Inductive result (A : Type) : Type :=
| Ok (a : A)
| Err (e : error).
Arguments Ok {A} a.
Arguments Err {A} e.

(** The [?] operator on [Result]. *)
Definition rbind {A B} (m : result A) (k : A -> result B) : result B :=
  match m with
  | Ok a => k a
  | Err e => Err e
  end.

Notation "'do!' x := m 'in' k" := (rbind m (fun x => k))
  (at level 200, x pattern, m at level 100, k at level 200, right associativity).

(** [.ok_or(e)?]: an absent value becomes the error [e]; a panic stays one. *)
Definition ok_or {A} (m : outcome A) (e : error) : result A :=
  match m with
  | Val a => Ok a
  | Non => Err e
  | Panic => Err EPanic
  end.

(** [if c { return Err(e) }] *)
Definition guard (c : bool) (e : error) : result unit :=
  if c then Err e else Ok tt.
