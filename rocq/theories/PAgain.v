(** Property theorems; generated from LAgain.v by meta/genp.py. *)
From Verif Require Import Py LPy MCards SCards LCards LDeck MSymbols SSymbols LSymBuild MTools STools LGen SAgain LAgain.

Theorem C134_again_refuted : forall fuel content out, genpages fuel content = Ok out ->
  exists r, forall n c', ran fuel (S n) content c' <-> c' = content ++ out ++ concat (repeat ([10] ++ lit "L      " ++ r) n).
Proof. exact (@C134_again_refuted_pf). Qed.
Print Assumptions C134_again_refuted.

Example C134_again_refuted_ex : exists out,
  genpages 0 (lit "# Filename: _A.argus" ++ [10] ++ lit "# Pages: 7-8") = Ok out /\
  ran 0 1 (lit "# Filename: _A.argus" ++ [10] ++ lit "# Pages: 7-8") ((lit "# Filename: _A.argus" ++ [10] ++ lit "# Pages: 7-8") ++ out) /\
  exists r, genpages 0 ((lit "# Filename: _A.argus" ++ [10] ++ lit "# Pages: 7-8") ++ out) = Ok ([10] ++ lit "L      @A" ++ [10] ++ r).
Proof.
  eexists. split; [vm_compute; reflexivity|]. split; [econstructor; [vm_compute; reflexivity|constructor]|].
  eexists. vm_compute. reflexivity.
Qed.

Theorem C134_again_partial : forall fuel content out sec c8, genpages fuel content = Ok out -> section_is (readlines content) sec c8 ->
  (exists x, In x (readlines content) /\ l_line x) \/ trimmed sec sec /\ zlen sec <= 73 ->
  forall n c', ran fuel n content c' <-> c' = content ++ concat (repeat out n).
Proof. exact (@C134_again_partial_pf). Qed.
Print Assumptions C134_again_partial.

Example C134_again_partial_ex : exists out,
  genpages 0 (lit "# Pages: 7-8" ++ [10] ++ lit "L       MAIN") = Ok out /\
  ran 0 2 (lit "# Pages: 7-8" ++ [10] ++ lit "L       MAIN") (lit "# Pages: 7-8" ++ [10] ++ lit "L       MAIN" ++ out ++ out).
Proof.
  eexists. split; [vm_compute; reflexivity|]. econstructor; [vm_compute; reflexivity|]. econstructor; [vm_compute; reflexivity|].
  vm_compute. constructor.
Qed.
