(** What a request needs besides a quote: accounts that can pay and be paid. *)
From Verif Require Import Ints Fees SwapCurve Codec Token Processor Api History Spec LedgerSpec.

(** A token account the user can spend [x] tokens of kind [mint] from, as its owner. *)
Definition wallet (w : world) (k user mint x : Z) : Prop :=
  exists t, token_at w k t /\ t_owner t = user /\ t_delegate t <> Some user /\
    t_mint t = mint /\ t_frozen t = false /\ t_amount t = x.

(** A token account that can be paid another [x] tokens of kind [mint]. *)
Definition accepts (w : world) (k mint x : Z) : Prop :=
  exists t, token_at w k t /\ t_mint t = mint /\ t_frozen t = false /\ t_amount t + x <= u64_max.

(** An account that [x] new tokens of kind [mint] can be created in. *)
Definition accepts_new (w : world) (k mint x : Z) : Prop :=
  accepts w k mint x /\ (forall t, token_at w k t -> t_native t = false) /\ supply w mint + x <= u64_max.

(** A token account that is not frozen. *)
Definition thawed (w : world) (k : Z) : Prop := exists t, token_at w k t /\ t_frozen t = false.

(** An address with one signature, not a multisig account. *)
Definition single_signer (w : world) (a : Z) : Prop :=
  ~ (a_owner (w a) = TOKEN_PROGRAM_ID /\ exists l, a_data (w a) = DRaw l /\ length l = 355%nat).

(** The mint of a vault, as recorded in the pool. *)
Definition vault_mint_of (s : swap_state) (v : Z) : Z :=
  if v =? st_token_a s then st_token_a_mint s else st_token_b_mint s.

(** The mint on one side of the pool. *)
Definition mint_on (d : trade_direction) (s : swap_state) : Z :=
  match d with AtoB => st_token_a_mint s | BtoA => st_token_b_mint s end.
