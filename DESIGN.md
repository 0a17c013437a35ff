# Machine-checked model of rally-dfs/token-bonding-curve

The source in `/repo/programs/token-bonding-curve/src` was read as text and
transcribed, function by function, into Rocq (Coq 8.16.1) under
`rocq/theories`.  Nothing was compiled or executed from `/repo`.

## Approach

* All machine integers are unbounded `Z`; every checked operation of the code
  is an explicit range check.  `Option`/`Result`/panic are data:
  `outcome A := Val a | Non | Panic` for the arithmetic layer, `result` with an
  error value (including a panic) for the instruction layer.
* Loops: the 32- and 100-iteration loops use a `nat` counter exactly like the
  code.  The unbounded `while` loop of the integer square root is run by a
  combinator giving it 2^64 iterations; a theorem shows that it always stops.
* The ledger is a total function from public keys to accounts; an unused address
  holds an empty account of the system program.  The token program (transfer /
  mint / burn / delegate rules) is modelled as far as the program uses it.
* Model files contain no proofs; property theorems live in `Props_*.v`, closed
  with `exact`, each followed by `Print Assumptions` and an `Example` showing a
  concrete instance of the hypotheses.

## Plan per property

| id | what is modelled | how it is proved |
|----|------------------|------------------|
| C01 | all five curve calculators, `SwapCurve::swap`, fees | case analysis per curve |
| C02 | `process_swap` over the ledger | symbolic execution of the result monad, additive balance deltas so that aliasing needs no special case |
| C03 | `is_curve_param_valid` | closed form of the fixed-point quotient |
| C04, C05 | `swap_a_to_b`, `swap_b_to_a` | monotonicity of up/down square roots |
| C06 | both linear swaps | proved for a stated parameter range, refuted in general by witness; the gain is bounded for every curve that can be created |
| C07 | history of linear swaps | invariant over a list of operations |
| C08, C09, C12 | linear swaps | integer error analysis |
| C10, C11 | over-sell branch | C10 proved, C11 refuted by witness |
| C13 | panic outcomes | refuted by witness; proved that the only panic is the rounding-up of an all-ones mantissa |
| C14, C15 | `sqrt_babylonian`, `sqrt_u64` | Newton-iteration invariant; mantissa/exponent analysis |
| C16, C17, C18 | fixed-point type | integer division lemmas; C18 refuted |
| C19, C20 | processor on linear pools | C19 true when pool supply is non-zero, refuted for supply zero |
| C21, C22 | fees, constraints | integer arithmetic |
| C23-C27 | constant-price curve | integer arithmetic; C26, C27 refuted with fees, proved in the restricted case |
| C28-C31 | constant product, offset, stable | integer arithmetic on ceiling division |
| C32, C33, C50 | byte codecs | list lemmas |
| C34-C48 | processor, Anchor layer, histories | symbolic execution + induction over histories with a rely condition for external activity |
| C51 | one-sided quotes of all curves | refuted by witness (128-bit narrowing); exact abort condition proved |
| C52-C55 | every instruction | success of an instruction is equivalent to a list of plain conditions plus a list of token-program calls (`CallSpec.v`) |
| C56 | token-program calls | success and effect of a call are equivalent to plain conditions |
| C57, C58 | fees | closed forms (`QuoteSpec.v`) |
| C59-C63 | every curve quote and validation | equality with a closed arithmetic form (`QuoteSpec.v`), for Newton iterations with the stated iteration plus an accuracy bound |
| C64, C65 | Anchor's entry point (`Entry.v`) | wire format as a prefix code; frame of the token-program calls |
| C66, C67 | ledger histories of one pool | each ledger step refines to a swap of the pure curve or leaves both vaults alone or adds to them |
| C68 | every instruction | two runs with different limits side by side |
| C69-C71 | errors of failed instructions | walk through every check; `ErrorSpec.v` attaches a fact to every instruction and error |
| C72-C73 | trade sequences and split sales on linear pools | backing argument of C66 started from an arbitrary covered amount; a sale keeps what its end position costs, so ends are compared |
| C74-C75 | fixed-point types and constant-price value on the whole range | case split on every range check |
| C76-C77 | locality and commutation of instructions | relational walk through every handler (`LocalFacts.v`) |
| C78-C79 | when linear trades go through and what they pay | refuted by witness, near-exact conditions and bounds from the closed forms |
| C80-C81 | when swaps, deposits and withdrawals go through on the ledger | equivalences from the exact specifications of `CallSpec.v` |
| C82 | whether others can block trades and withdrawals | refuted by witness (fee account closed by its owner), proved for linear trades |
| C83 | pool mint distinct from the traded mints | refuted by witness, the collision needs an empty vault |
| C84 | histories of linear pools with inexact parameters | tolerance on the position rather than the cost; it does not add up because tokens are whole and every sale ends on a whole token |
| C85-C88 | instructions built by the client library (`Client.v`) | first byte of the data decides; fixed positions otherwise |
| C89, C90 | accounts read by the client library | the library's offsets against the program's decoding; invariant that versioned accounts are pools |
| C91 | texts of errors (`ErrorText.v`) | comparison of two tables |
| C92-C96 | the program's own randomized tests (`RandomTests.v`) and the simulation it is tested against (`Simulation.v`) | a test is a function of its draw; proved for all draws in range, or refuted by one |
| C97 | `process_swap` with a host account | as C52; the instruction never passes one |
| C98 | every error of a request with the right accounts (the list of the fuzz harness) | C69 combined with C80-C81 |
| C99 | sums of balances over runs of instructions (the totals of the fuzz harness) | every token-program call keeps the sum less the supply; `exec_calls` |
| C100, C101 | what constant-price pool tokens are redeemed for, what stays behind | refuted by witness histories; exact payments and rests from C59 and the vault effects |
| C102 | round trips of deposits and withdrawals | refuted by a witness history; an invariant over histories that counts two-sided deposits and what fees give away |
| C103 | larger offers, smallest purchase on linear curves | refuted by witness; the estimate from below exceeds the exact position by at most one token because slopes below 10^-18 are rejected |
| C104 | pools and payments of a production build | pools from C48 and the constraints; the minted fee from C59; that every trade pays the owner is refuted by witness |
| C105 | loss per trade on any linear pool | as C84 with a tolerance that grows by a fixed amount per sale; purchases never widen it, because both ends of a purchase are estimated towards the pool; unbounded drain by an explicit two-trade loop and induction over its repetitions |
| C106 | a second curve that continues the first | algebra of the exact costs, `sold_out_exact` for the amounts, `blur_above` for the position of a fresh pool, divisibility for the refutation |
| C107 | rounds of the square-root loop | Newton contraction against a table of bounds scaled by 2^80, one rounding step at the end |
| C108 | the C header (`CHeader.v`) | first byte of the data, first two bytes of a pool |
| C109 | trades before and after somebody else's trade | coverage of C72 and C105 over the whole trace, the limit of the trade in the middle |
| C110 | what rounding locks up in a linear pool | upper invariant on the collateral, step by step, against the area function of C04 |
| C111 | what a purchase sold straight back loses | two steps of the invariant of C110 |
| C112 | instructions for interface descriptions leave pools alone | case analysis of what they write; tags of accounts |
| C113 | who changes a description, and how | bytes of the stored description |
| C114 | who creates the description | anyone, while the address is empty |
| C115 | a stranger and the account of a future pool | exact conditions of creation |
| C116 | redeeming all pool tokens at once | exact condition from C81, arithmetic of half the worth |
| C117 | linear pools with fees | the processor's own creation as a witness; exact conditions of swaps |
| C118 | round trips and split sales on the ledger | C06, C73 and the exact effect of swaps on the vaults |
| C119 | the fuzz test of the constant-price pool (`fuzz/src/instructions.rs`, `native_token_swap.rs`, `native_token.rs`) | invariant of the ledger over any list of its instructions; C98, C99 and C116 for errors, totals and the end; a potential over the vaults, the supply and the fee account for the value of a pool token |
| C120 | draining a linear pool, and the test `minimum_token_exchange_rounding` (`RoundTrip.v`) with curve, supply and step as parameters | the invariant of C84 at collateral 0; the loops of the test are histories |
| C121 | amounts of collateral at which a linear pool is blocked (`BlockSpec.v`), and gifts that block it | the abort condition of the square root (C13), the step relation of `History.v` |
| C122 | the value of stable pools in test builds (`StableTest.v`), with the solver of cubic equations as a parameter | sign of the cubic for positive arguments; the saturating cast |
| C123 | two runs of the linear curve on reserves that differ by a gift (`GiftSpec.v`) | what a sale leaves behind is monotone in the reserve |
| C124 | two trades at different reserves | convexity of the area, with the bounds on the estimated positions of C110 |
| C125 | larger sales | monotonicity of the area and of the end position; the ledger part composes with C80 |
| C126 | requests of the client library that go through | composition of C86, C88, C80 and C81 |
| C49 | `normalized_value` of linear curve | refuted by witness, bound proved |

## Layers

* Model (no proofs): `Outcome Ints SplMath DfsPrecise LinearCurve Fees
  ConstantPrice ConstantProduct OffsetCurve StableCurve SwapCurve Codec Token
  Processor Api History Sha256 Entry`.
* Specification vocabulary (no proofs, does not use the model's helpers beyond
  its data types): `Spec.v` (areas, roots, roundings, fractions), `LedgerSpec.v`
  (balances, supplies, who changed what), `CallSpec.v` (token-program calls and
  the sequence of calls of an instruction), `QuoteSpec.v` (closed forms of every
  quote), `WireSpec.v` (instruction data and writable accounts), `TraceSpec.v`
  (what a history paid in and out of a pool), `LimitSpec.v` (one request with
  different limits), `ErrorSpec.v` (what each error of each instruction means), `LocalSpec.v`
  (the accounts an instruction works with), `LiveSpec.v` (accounts that can pay and be
  paid), `RoundSpec.v` (parameters with a small rounding error),
  `ClientSpec.v` (instructions of the client library and how they would have to be sent),
  `TestSpec.v` (what randomized tests draw and when they hold), `HostSpec.v` (swaps with a host),
  `RequestSpec.v` (accounts that can be paid, the charge on withdrawals), `TotalSpec.v` (sums of balances,
  runs of instructions), `TripSpec.v` (counting deposits in histories, and what fees give away),
`DriftSpec.v` (tokens that two units of collateral buy, counting sales),
`NextSpec.v` (a curve that starts where another ends),
`LoopSpec.v` (loops that end within a number of rounds),
`LockSpec.v` (what trades and gifts leave behind),
`IdlSpec.v` (descriptions on the ledger),
`FuzzSpec.v` (what the fuzz test can be given, and when an instruction lacks funds),
`BlockSpec.v` (amounts of collateral at which swaps abort),
`CubicSpec.v` (what a solver of cubic equations is expected to do),
`GiftSpec.v` (sales one after the other).
* Proofs: the remaining files without `Props_` prefix.
* Property theorems: `Props_*.v`, one name `Cnn_...` per statement.
  `Cnn_..._refuted` is a witness that the property as listed is false;
  `Cnn_..._partial` is the strongest true variant proved.
* `Conformance.v` evaluates the model on the expected values of the unit tests in
  the repository (the long loop `minimum_token_exchange_rounding` is in
  `RoundTrip.v`),
  `ProcessorTests.v` on the tests of the handlers (`processor.rs` 1056-6771, which
  are commented out in the repository), `EndToEnd.v` on the end-to-end tests
  (`tests/token-bonding-curve.ts`, whose balances were observed on the deployed
  program) and the inherited client tests (`app/cli/token-swap-test.ts`).  They
  test the transcription and prove no property.

## What is modelled

All of `programs/token-bonding-curve/src` outside `#[cfg(test)]`, namely:

| source | model |
|--------|-------|
| `dfs_precise_number.rs` 18-320 | `DfsPrecise.v` |
| `curve/linear_price.rs` 31-486 | `LinearCurve.v`, byte format in `Codec.v` |
| `curve/constant_price.rs` 15-260 | `ConstantPrice.v`, byte format in `Codec.v` |
| `curve/constant_product.rs` 20-274 | `ConstantProduct.v`, byte format in `Codec.v` |
| `curve/offset.rs` 25-184 | `OffsetCurve.v`, byte format in `Codec.v` |
| `curve/stable.rs` 18-344 | `StableCurve.v`, byte format in `Codec.v` |
| `curve/calculator.rs`, `curve/base.rs` | `SwapCurve.v`, byte format in `Codec.v` |
| `curve/fees.rs` | `Fees.v`, byte format in `Codec.v` |
| `state.rs` | `Codec.v` |
| `constraints.rs`, `processor.rs` 25-975, 1048-1054 | `Processor.v` |
| `lib.rs`, `instructions/*.rs` | `Api.v` |
| expansion of the Anchor macros in `lib.rs`, `instructions/*.rs` | `Entry.v`, `Sha256.v` |
| instructions for the interface description (IDL) that `#[program]` in `lib.rs` adds | `Idl.v` |
| `app/src/index.ts`, `layout.ts`, `util/account.ts` | `Client.v`, `Base58.v` |
| texts in `error.rs`, `processor.rs` 980-1046 | `ErrorText.v` |
| `curve/calculator.rs` 195-548, `proptest!` blocks of `curve/*.rs` | `RandomTests.v` |
| `curve/linear_price.rs` 1801-1960 | `RoundTrip.v` |
| `../sim/simulation.py`, `../sim/src/lib.rs` | `Simulation.v` |
| `fuzz/src/instructions.rs`, `native_token_swap.rs`, `native_token.rs` | `Fuzz.v` |
| `inc/token-swap.h` | `CHeader.v` |
| `error.rs` | `Outcome.v` (variants), `ErrorCodes.v` (numbers) |

## What is not modelled

* Logging other than the texts of errors.
* Other test-only helpers, `app/cli` apart from the balances its tests expect (end of `EndToEnd.v`), and
  build scripts.
* Floating-point arithmetic.  The value of stable pools in test builds (`StableTest.v`) is modelled
  with exact rational numbers and any solver of cubic equations; only the sign of its answer matters.
* In the client library (`app/src`): connections, confirmation of transactions and
  accounts paying for them; a method is the instruction it builds.
* In the `instr` layer (`Api.v`) the `mut` flags; they are checked in `Entry.v`.
* Lamports, rent, compute budget, transaction size, stack depth.  The native-mint
  flag of token accounts is kept because the token program tests it, but the
  lamports behind it are not.
* Heap or stack exhaustion in the program; a failing instruction has no effect.

## Simplifications

* An `AccountInfo` is its key; owner and data are looked up in the ledger.  Two
  positions holding the same key are therefore the same account, as on chain.
* Initialised token-program accounts are kept decoded.  Reading such an account
  as a pool sees the empty byte string; in the code it fails by its length (165
  or 82 bytes instead of 324).  Both fail; the error value may differ.
* The errors of the token program are all `EToken`; runtime errors are `ERuntime`.
* Token-program multisig authorities are rejected, as in the program's calls,
  which never pass further signers.
* `SwapCurve` pairs a type tag with its own calculator; the code could hold a
  mismatched pair, but never constructs one.
* The unchecked `amount += 1` of `constant_product.rs` 80 and 86 (and the copy in
  `stable.rs`) panics in the model and would wrap in a build without overflow
  checks.  The closed form proved for it (C60, C62) has neither case: an inexact
  quotient has a divisor of at least 2, so the increment cannot overflow.

* Fuzz test (`Fuzz.v`): only the constant-price pool, whose curve this program can still
  create; all 256 accounts of each kind exist from the start; the user signs each instruction
  instead of approving the amount to a delegate.  The test puts up with one error of the token
  program, lack of funds; the model has one value for all its errors, and C119_funds shows
  that they are for lack of funds.

## Trusted base

* Coq's kernel (8.16.1) and `vm_compute` (part of the kernel).
* `Print Assumptions` under every property theorem: all are "Closed under the
  global context".  The project states no axiom, parameter or hypothesis.  The
  independent checker lists seven entries of the standard library
  (`Coq.ssr.ssrunder`, the abstract `Under_rel` module); they come with the
  `ssreflect` tactic files loaded by `lia`/`zify` and no theorem depends on them.
* The reading of the Rust sources; each definition cites its lines.
* Four dependencies whose source is not in `/repo`, transcribed from their
  published behaviour: spl-math 0.1.0 (`SplMath.v`), the `uint` crate's checked
  arithmetic, `bits`, `as_u64`, `as_u128` (`Ints.v`), spl-token 3.3.0 (`Token.v`),
  and the code generated by anchor-lang 0.20.1 (`Entry.v`, `Idl.v`; whether it checks one
  account of an IDL instruction is a parameter).  For the client library
  also bn.js, buffer-layout and the flags web3.js gives a call (`Client.v`).
* Assumptions that appear as hypotheses of the theorems which need them:
  * `env_ok`: the derived address found for a pool is the one recomputed from its
    bump; different seeds or bumps never give the same address.
  * `idl_env_ok`: nobody signs with the two addresses of the interface description, which
    differ, and the one that is only derived holds no data of the program.
  * `signers_ok`: nobody can sign with an address derived from this program.
  * `external_ok`: what other programs, and token-program calls made outside this
    program, can do to an account (`History.v`).
  * `genesis_ok`: before the first instruction no account of this program starts
    with the version byte of a pool.
