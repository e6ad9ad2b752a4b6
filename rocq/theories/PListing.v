(** Property theorems; generated from LListing.v by meta/genp.py. *)
From Verif Require Import Py LPy LSort MInstruction MInstructions SInstruction LInstruction LInstructions SListing LListing.

Theorem C52_listing_sound_complete_sorted : exists es : list (Z * str),
    print_instructions = Ok (concat (map line es)) /\
    StronglySorted Z.lt (map fst es) /\
    (forall k, In k (map fst es) <-> exists m, produces m k) /\
    (forall k m, In (k, m) es -> produces m k).
Proof. exact (@C52_listing_sound_complete_sorted_pf). Qed.
Print Assumptions C52_listing_sound_complete_sorted.

(** 0o0001 is listed, as FBAE; 0o0002 is no command code *)
Example C52_example : produces (lit "FBAE") 1.
Proof.
  exists (mkopcode (lit "FBAE") (lit "FloatingBinaryAddExtendedPrecision") (Some 0) (Some 0) (Some 1) (lit "unmasked")).
  split; [apply dget_Some_In; vm_compute; reflexivity|]. right; left. split; [reflexivity|].
  exists 0, 0, 0, 0. unfold is_bit. repeat split; auto.
Qed.

Theorem C52_listing_is_opcodes_txt : print_instructions = Ok (lit opcodes_txt).
Proof. exact (@C52_listing_is_opcodes_txt_pf). Qed.
Print Assumptions C52_listing_is_opcodes_txt.

Example C52_file_example : zlen (lit opcodes_txt) = 19458 /\ count_char 10 (lit opcodes_txt) = 1890.
Proof. vm_compute. auto. Qed.
