(** The texts of errors: C91. *)
From Coq Require Import String.
From Verif Require Import Ints ErrorCodes ErrorText ErrorTextFacts.

(** C91.  Each error has a text of its own, both as declared and in the log. *)
Theorem C91_texts_tell : forall a b, (error_text a = error_text b -> a = b) /\ (error_log a = error_log b -> a = b).
Proof. exact (fun a b => conj (text_inj a b) (log_inj a b)). Qed.
Print Assumptions C91_texts_tell.

(** C91.  The log does not always say what is declared ... *)
Theorem C91_log_refuted : exists e, error_log e <> ("Error: " ++ error_text e)%string.
Proof. exists ConversionFailure. discriminate. Qed.
Print Assumptions C91_log_refuted.

(** ... namely for these five errors. *)
Theorem C91_log_differs : forall e, error_log e = ("Error: " ++ error_text e)%string <->
  ~ In e [InvalidOwner; CalculationFailure; InvalidInstruction; FeeCalculationFailure; ConversionFailure].
Proof. exact log_agrees. Qed.
Print Assumptions C91_log_differs.
Example C91_case :
  error_text ExceededSlippage = "Swap instruction exceeds desired slippage limit"%string /\
  error_log ExceededSlippage = "Error: Swap instruction exceeds desired slippage limit"%string /\
  error_text ConversionFailure = "Conversion to u64 failed with an overflow or underflow"%string /\
  error_log ConversionFailure = "Error: Conversion to or from u64 failed."%string.
Proof. repeat split; reflexivity. Qed.
