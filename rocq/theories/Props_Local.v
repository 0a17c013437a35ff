(** Locality and independence of instructions: C76, C77. *)
From Verif Require Import Ints Fees SwapCurve Codec Token Processor Api LocalSpec LocalFacts LedgerExamples.

(** C76.  What an instruction does, or the error it fails with, depends only on the
    accounts it names and on which of them signed. *)
Theorem C76_depends_on_named : forall e g1 g2 w1 w2 i, (forall k, In k (used i) -> w1 k = w2 k) ->
  (forall k, In k (used i) -> In k g1 <-> In k g2) ->
  same_result (used i) (exec e g1 w1 i) (exec e g2 w2 i).
Proof. exact exec_same. Qed.
Print Assumptions C76_depends_on_named.

(** C76.  It changes no other account. *)
Theorem C76_changes_only_named : forall e g w i w' k, exec e g w i = Ok w' -> ~ In k (used i) -> w' k = w k.
Proof. exact exec_frame. Qed.
Print Assumptions C76_changes_only_named.

(** The same swap on the example ledger and on one where everything else has been
    wiped, with an additional signature. *)
Example C76_case :
  let i := Swap [100; auth 100; 901; 111; 101; 102; 112; 203; 103; TOKEN_PROGRAM_ID; 300; 301] 1000 1 in
  let w k := if mem k (used i) then ex_w2 k else empty_account in
  used i = [100; auth 100; 901; 111; 101; 102; 112; 203; 103; TOKEN_PROGRAM_ID] /\
  bals (exec ex_env [901] ex_w2 i) [101; 102; 111; 112] = [1000; 4982; 99000; 50018] /\
  bals (exec ex_env [7; 901] w i) [101; 102; 111; 112] = [1000; 4982; 99000; 50018].
Proof. vm_compute. repeat split; reflexivity. Qed.

(** C77.  Two instructions that both succeed, where neither changes an account that
    both name, succeed in either order and lead to the same ledger. *)
Theorem C77_independent_commute : forall e gi gj w i j wi wj,
  exec e gi w i = Ok wi -> exec e gj w j = Ok wj ->
  (forall k, In k (used i) -> In k (used j) -> wi k = w k /\ wj k = w k) ->
  exists wij wji, exec e gj wi j = Ok wij /\ exec e gi wj i = Ok wji /\ forall k, wij k = wji k.
Proof. exact exec_commute. Qed.
Print Assumptions C77_independent_commute.

(** A swap on the linear pool and a withdrawal from the constant-price pool into
    accounts 121 and 122, by the same user: they share only the user's address and
    the token program. *)
Example C77_case :
  let w := upd (upd ex_w2 121 (tok 201 901 5)) 122 (tok 202 901 6) in
  let i := Swap [100; auth 100; 901; 111; 101; 102; 112; 203; 103; TOKEN_PROGRAM_ID] 1000 1 in
  let j := WithdrawAll [300; auth 300; 901; 403; 304; 301; 302; 121; 122; 303; TOKEN_PROGRAM_ID] 100000000 1 1 in
  let ks := [101; 102; 111; 112; 301; 302; 121; 122; 403; 304] in
  filter (fun k => mem k (used j)) (used i) = [901; TOKEN_PROGRAM_ID] /\
  bals (exec ex_env [901] (run1 [901] w i) j) ks = bals (exec ex_env [901] (run1 [901] w j) i) ks /\
  bals (exec ex_env [901] (run1 [901] w i) j) ks = [1000; 4982; 99000; 50018; 6383; 1795; 622; 211; 905000000; 900000000].
Proof. vm_compute. repeat split; reflexivity. Qed.
