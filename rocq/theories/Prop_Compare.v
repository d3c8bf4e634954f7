(** Property C07: comparing amounts. *)
From Verif Require Import Base BaseFacts Currency Spec_Currency CurrencyFacts CurrencyFacts2.
From Coq Require Import ZifyBool ZifyNat ZifyN.

(** What an operand is worth: an amount, or a number of TFT. *)
Definition operand_worth (o : coperand) (n : N) : Prop :=
  match o with
  | COCur b => is_currency b /\ amount b n
  | COInt z => (0 <= z)%Z /\ n = Z.to_N z * 10 ^ 9
  | COStr s => exists b, cset (CIStr s) = Ok b /\ amount b n
  | COFloat s => exists d b, parse_dec s = Ok d /\ cset (CIDec d) = Ok b /\ amount b n
  | COOther => False
  end.
Lemma operand_as o n : operand_worth o n -> exists b, as_currency o = Ok b /\ valid b /\ units b = n.
Proof.
  assert (V : forall v b, cset v = Ok b -> (forall d, v <> CICur d) -> amount b n -> valid b /\ units b = n).
  { intros v b E N A. assert (W : valid b) by (eapply cset_valid; [exact E|intros d X; elim (N d X)]). split; [exact W|]. symmetry. now apply amount_units. }
  destruct o as [z|s|s|b|]; cbn [operand_worth as_currency].
  - intros (L & ->). destruct (cset_int z L) as (c & E & W & U). eauto.
  - intros (b & E & A). destruct (V _ _ E ltac:(discriminate) A) as (W & U). eauto.
  - intros (d & b & D & E & A). rewrite D. cbn [bind]. destruct (V _ _ E ltac:(discriminate) A) as (W & U). eauto.
  - intros (I & A). apply is_currency_valid in I. exists b. split; [reflexivity|]. split; [exact I|]. symmetry. now apply amount_units.
  - contradiction.
Qed.
(** The six operators compare the amounts, whatever the amount is compared with. *)
Theorem C07_operators : forall a m o n, is_currency a -> amount a m -> operand_worth o n ->
  clt a o = Ok (m <? n) /\ cle a o = Ok (m <=? n) /\ ceq a o = Ok (m =? n) /\ cne a o = Ok (negb (m =? n)) /\ cgt a o = Ok (n <? m) /\ cge a o = Ok (n <=? m).
Proof.
  intros a m o n A M W. apply is_currency_valid in A. pose proof (amount_units a m A M) as ->. destruct (operand_as o n W) as (b & E & B & <-).
  assert (C : ccmp a o = Ok (units a ?= units b)).
  { unfold ccmp. rewrite E. cbn [bind]. pose proof (ccmp_units a b A B) as X. exact X. }
  unfold clt, cle, ceq, cne, cgt, cge. rewrite C. cbn [bind]. destruct (N.compare_spec (units a) (units b)); repeat split; f_equal; lia.
Qed.
Print Assumptions C07_operators.
(** Comparing with what is no amount raises the error of making one of it. *)
Theorem C07_no_operand : forall a o e, as_currency o = Err e -> clt a o = Err e /\ cle a o = Err e /\ ceq a o = Err e /\ cne a o = Err e /\ cgt a o = Err e /\ cge a o = Err e.
Proof. intros a o e E. unfold clt, cle, ceq, cne, cgt, cge, ccmp. rewrite E. cbn [bind]. repeat split. Qed.
Print Assumptions C07_no_operand.
Example C07_operators_ex : exists a, is_currency a /\ amount a 1500000000 /\ operand_worth (COInt 2) 2000000000 /\ operand_worth (COStr (s2b "1.5 TFT")) 1500000000 /\ operand_worth (COFloat (s2b "1.25")) 1250000000 /\ as_currency (COInt (-1)) = Err NameError.
Proof.
  exists (Some (mkdec false 15 (-1))). split; [exists [ONew (SStr (s2b "1.5 TFT"))]; vm_compute; auto|]. split; [vm_compute; auto|]. split; [vm_compute; split; [discriminate|reflexivity]|].
  split; [eexists; split; [vm_compute; reflexivity|vm_compute; auto]|]. split; [eexists _, _; split; [vm_compute; reflexivity|]; split; [vm_compute; reflexivity|vm_compute; auto]|]. vm_compute. reflexivity.
Qed.
