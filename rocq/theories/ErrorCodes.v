(** The numbers of the program's own errors, as they leave the program. *)
From Verif Require Import Ints.

(** error.rs 9-105 (declaration order), 106-110: [ProgramError::Custom(e as u32)] *)
Definition error_code (e : swap_error) : Z :=
  match e with
  | AlreadyInUse => 0 | InvalidProgramAddress => 1 | InvalidOwner => 2 | InvalidOutputOwner => 3
  | ExpectedMint => 4 | ExpectedAccount => 5 | EmptySupply => 6 | InvalidSupply => 7
  | InvalidDelegate => 8 | InvalidInput => 9 | IncorrectSwapAccount => 10 | IncorrectPoolMint => 11
  | InvalidOutput => 12 | CalculationFailure => 13 | InvalidInstruction => 14 | RepeatedMint => 15
  | ExceededSlippage => 16 | InvalidCloseAuthority => 17 | InvalidFreezeAuthority => 18
  | IncorrectFeeAccount => 19 | ZeroTradingTokens => 20 | FeeCalculationFailure => 21
  | ConversionFailure => 22 | InvalidFee => 23 | IncorrectTokenProgramId => 24
  | UnsupportedCurveType => 25 | InvalidCurve => 26 | UnsupportedCurveOperation => 27
  end.

(** error.rs 8 ([FromPrimitive] of num_derive): the variant with this number *)
Definition error_from_code (n : Z) : option swap_error :=
  match n with
  | 0 => Some AlreadyInUse | 1 => Some InvalidProgramAddress | 2 => Some InvalidOwner | 3 => Some InvalidOutputOwner
  | 4 => Some ExpectedMint | 5 => Some ExpectedAccount | 6 => Some EmptySupply | 7 => Some InvalidSupply
  | 8 => Some InvalidDelegate | 9 => Some InvalidInput | 10 => Some IncorrectSwapAccount | 11 => Some IncorrectPoolMint
  | 12 => Some InvalidOutput | 13 => Some CalculationFailure | 14 => Some InvalidInstruction | 15 => Some RepeatedMint
  | 16 => Some ExceededSlippage | 17 => Some InvalidCloseAuthority | 18 => Some InvalidFreezeAuthority
  | 19 => Some IncorrectFeeAccount | 20 => Some ZeroTradingTokens | 21 => Some FeeCalculationFailure
  | 22 => Some ConversionFailure | 23 => Some InvalidFee | 24 => Some IncorrectTokenProgramId
  | 25 => Some UnsupportedCurveType | 26 => Some InvalidCurve | 27 => Some UnsupportedCurveOperation
  | _ => None
  end.
