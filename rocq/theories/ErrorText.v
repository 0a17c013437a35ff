(** The texts of the program's own errors. *)
From Coq Require Import String.
From Verif Require Import Ints.
Open Scope string_scope.

(** error.rs 9-105: the [#[error]] attributes, which thiserror makes the [Display] of
    the error *)
Definition error_text (e : swap_error) : string :=
  match e with
  | AlreadyInUse => "Swap account already in use"
  | InvalidProgramAddress => "Invalid program address generated from bump seed and key"
  | InvalidOwner => "Input account owner is not the program address"
  | InvalidOutputOwner => "Output pool account owner cannot be the program address"
  | ExpectedMint => "Deserialized account is not an SPL Token mint"
  | ExpectedAccount => "Deserialized account is not an SPL Token account"
  | EmptySupply => "Input token account empty"
  | InvalidSupply => "Pool token mint has a non-zero supply"
  | InvalidDelegate => "Token account has a delegate"
  | InvalidInput => "InvalidInput"
  | IncorrectSwapAccount => "Address of the provided swap token account is incorrect"
  | IncorrectPoolMint => "Address of the provided pool token mint is incorrect"
  | InvalidOutput => "InvalidOutput"
  | CalculationFailure => "General calculation failure due to overflow or underflow"
  | InvalidInstruction => "Invalid instruction"
  | RepeatedMint => "Swap input token accounts have the same mint"
  | ExceededSlippage => "Swap instruction exceeds desired slippage limit"
  | InvalidCloseAuthority => "Token account has a close authority"
  | InvalidFreezeAuthority => "Pool token mint has a freeze authority"
  | IncorrectFeeAccount => "Pool fee token account incorrect"
  | ZeroTradingTokens => "Given pool token amount results in zero trading tokens"
  | FeeCalculationFailure => "Fee calculation failed due to overflow, underflow, or unexpected 0"
  | ConversionFailure => "Conversion to u64 failed with an overflow or underflow"
  | InvalidFee => "The provided fee does not match the program owner's constraints"
  | IncorrectTokenProgramId => "The provided token program does not match the token program expected by the swap"
  | UnsupportedCurveType => "The provided curve type is not supported by the program owner"
  | InvalidCurve => "The provided curve parameters are invalid"
  | UnsupportedCurveOperation => "The operation cannot be performed on the given curve"
  end.

(** processor.rs 980-1046: what is written to the log *)
Definition error_log (e : swap_error) : string :=
  match e with
  | AlreadyInUse => "Error: Swap account already in use"
  | InvalidProgramAddress => "Error: Invalid program address generated from bump seed and key"
  | InvalidOwner => "Error: The input account owner is not the program address"
  | InvalidOutputOwner => "Error: Output pool account owner cannot be the program address"
  | ExpectedMint => "Error: Deserialized account is not an SPL Token mint"
  | ExpectedAccount => "Error: Deserialized account is not an SPL Token account"
  | EmptySupply => "Error: Input token account empty"
  | InvalidSupply => "Error: Pool token mint has a non-zero supply"
  | RepeatedMint => "Error: Swap input token accounts have the same mint"
  | InvalidDelegate => "Error: Token account has a delegate"
  | InvalidInput => "Error: InvalidInput"
  | IncorrectSwapAccount => "Error: Address of the provided swap token account is incorrect"
  | IncorrectPoolMint => "Error: Address of the provided pool token mint is incorrect"
  | InvalidOutput => "Error: InvalidOutput"
  | CalculationFailure => "Error: CalculationFailure"
  | InvalidInstruction => "Error: InvalidInstruction"
  | ExceededSlippage => "Error: Swap instruction exceeds desired slippage limit"
  | InvalidCloseAuthority => "Error: Token account has a close authority"
  | InvalidFreezeAuthority => "Error: Pool token mint has a freeze authority"
  | IncorrectFeeAccount => "Error: Pool fee token account incorrect"
  | ZeroTradingTokens => "Error: Given pool token amount results in zero trading tokens"
  | FeeCalculationFailure => "Error: The fee calculation failed due to overflow, underflow, or unexpected 0"
  | ConversionFailure => "Error: Conversion to or from u64 failed."
  | InvalidFee => "Error: The provided fee does not match the program owner's constraints"
  | IncorrectTokenProgramId => "Error: The provided token program does not match the token program expected by the swap"
  | UnsupportedCurveType => "Error: The provided curve type is not supported by the program owner"
  | InvalidCurve => "Error: The provided curve parameters are invalid"
  | UnsupportedCurveOperation => "Error: The operation cannot be performed on the given curve"
  end.
