(** Property C26, continued: signers with and without a secret. *)
From Verif Require Import Base BaseFacts Encoders Types Conditions Fulfillments ThreeBotTypes Txn Spec_Types Spec_Fulfil Spec_Txn Spec_Ops TxnFacts3 Prop_Txn.

(** Across signers with and without secret the claim is false as it is for standard transactions (C22_secret_refuted): the 32 bytes of a
    secret can be the beginning of a list of addresses.  Both updates are within the protocol's limits, pay the usual fee and have a refund. *)
Definition amb_upd : tx_upd := mkupd 3 [mkna 0 (s2b "bot.test.org"); mkna 2 (repeat 5 16); mkna 2 ([0; 0; 0; 0; 12] ++ le 8 2 ++ [1; 2; 3]); mkna 2 (repeat 6 16)]
  [] [] [] 0 (Some 100000000) [ex_in (repeat 4 32)] (Some ex_o) None None.
Definition amb_upd_secret : bytes := [8; 48] ++ s2b "bot.test.org" ++ [66] ++ repeat 5 16 ++ [66].
Definition amb_upd2 : tx_upd := mkupd 3 [] [] [] [] 12 (Some 100000000) [ex_in ([1; 2; 3; 66] ++ repeat 6 16 ++ [0; 0; 0; 0] ++ le 8 1); ex_in (repeat 4 32)] (Some ex_o) None None.
Theorem C26_secret_refuted : exists t u k s, forall H, exists d,
  is_3bot t = true /\ is_3bot u = true /\ limits t /\ limits u /\ sized t /\ sized u /\ key32 k /\ hash32 s /\
  sig_input H t (extras_of (KeyInput 0 k)) = Ok d /\ sig_input H u (extras_of (SecretInput 0 k s)) = Ok d /\
  content_of t <> content_of u.
Proof.
  exists (T145 amb_upd), (T145 amb_upd2), (ex_key 11), amb_upd_secret. intro H. eexists.
  split; [reflexivity|]. split; [reflexivity|]. split; [cbn; lia|]. split; [cbn; lia|].
  split; [|split; [|split; [|split; [|split; [|split]]]]].
  - cbn. sized_tac.
  - cbn. sized_tac.
  - apply hash32_b; reflexivity.
  - apply hash32_b; reflexivity.
  - vm_compute. reflexivity.
  - vm_compute. reflexivity.
  - discriminate.
Qed.
Print Assumptions C26_secret_refuted.
