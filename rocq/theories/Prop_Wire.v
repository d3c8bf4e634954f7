(** C84: the bytes of keys, addresses, conditions, fulfilments and transactions are those of their layout (Spec_Wire). *)
From Verif Require Import Base BaseFacts Encoders Primitive Types Conditions Fulfillments ThreeBotTypes Txn Spec_ERC20 Spec_Texts Spec_Types Spec_Forms Spec_Merkle Spec_Wire
  TypesFacts Prop_Texts WireFacts WireFacts2.
From Coq Require Import ZifyBool ZifyNat ZifyN.

(** ** The parts *)
Theorem C84_key : forall p b, (pk_sia p = Ok b <-> key Sia p b) /\ (pk_riv p = Ok b <-> key Rivine p b).
Proof. intros p b. split; [apply enc_pk_sia | apply enc_pk_riv]. Qed.
Print Assumptions C84_key.
Theorem C84_address_bytes : forall u b, (uh_sia u = Ok b <-> Spec_Wire.address u b) /\ (uh_riv u = Ok b <-> Spec_Wire.address u b).
Proof. intros u b. split; [apply enc_uh_sia | apply enc_uh_riv]. Qed.
Print Assumptions C84_address_bytes.
Theorem C84_condition : forall k b, (cond_sia k = Ok b <-> condition Sia k b) /\ (cond_riv k = Ok b <-> condition Rivine k b).
Proof. intros k b. split; [apply enc_cond_sia | apply enc_cond_riv]. Qed.
Print Assumptions C84_condition.
Theorem C84_fulfilment : forall f b, (ff_sia f = Ok b <-> fulfilment Sia f b) /\ (ff_riv f = Ok b <-> fulfilment Rivine f b).
Proof. intros f b. split; [apply enc_ff_sia | apply enc_ff_riv]. Qed.
Print Assumptions C84_fulfilment.

(** ** Addresses *)
Theorem C84_key_address : forall H p u, pk_unlockhash H p = Ok u <-> key_address H p u.
Proof. exact key_address_iff. Qed.
Print Assumptions C84_key_address.
(** the owners of a multi-signature condition come in the order of what [str] prints for them *)
Theorem C84_condition_address : forall H k u, cond_unlockhash H k = Ok u <-> paid_to H (fun v s => uh_str H v = Ok s) k u.
Proof. exact paid_iff. Qed.
Print Assumptions C84_condition_address.
Theorem C84_printed : forall H u s, hash_ok H -> wf_bytes (uh_hash u) -> (uh_str H u = Ok s <-> printed H u s).
Proof.
  intros H u s HH W. unfold printed, uh_str, uh_checksum.
  assert (Z32 : wf_bytes (repeat 0 32)) by (apply Forall_forall; intros x I; apply repeat_spec in I; lia).
  assert (Z6 : wf_bytes (repeat 0 6)) by (apply Forall_forall; intros x I; apply repeat_spec in I; lia).
  assert (HS : forall b, lower_text b (match uh_hash u with [] => repeat 0 32 | h => h end) <-> b = hash_str (uh_hash u)).
  { intro b. unfold hash_str. destruct (uh_hash u) as [|x h] eqn:E; rewrite lower_hex; try assumption; reflexivity. }
  assert (W6 : forall x, wf_bytes (firstn 6 (H x))).
  { intro x. destruct (HH x) as (_ & Wx). apply Forall_forall. intros y I. unfold wf_bytes in Wx. rewrite Forall_forall in Wx. apply Wx. revert I. generalize (H x). clear.
    intro l. generalize 6%nat. intro n. revert l. induction n as [|n IH]; intros [|z l]; cbn [firstn In]; [tauto|tauto|tauto|]. intros [->|I]; [auto | right; apply IH; exact I]. }
  split.
  - intro E. apply bind_ok in E as (c & Ec & E). apply bind_ok in E as (unit0 & G & E). apply ok_inj in E. apply guard_ok in G. subst s.
    exists (Z.to_N (uh_type u)), (hex [Z.to_N (uh_type u)]), (hash_str (uh_hash u)), (hex (firstn 6 c)).
    split; [lia|]. split; [reflexivity|]. split; [apply lower_hex; [constructor; [lia | constructor] | reflexivity]|]. split; [apply HS; reflexivity|].
    destruct (uh_type u =? 0)%Z eqn:T.
    + apply ok_inj in Ec. subst c. replace (Z.to_N (uh_type u) =? 0) with true by lia. apply lower_hex; [exact Z6 | reflexivity].
    + replace (Z.to_N (uh_type u) =? 0) with false by lia. apply bind_ok in Ec as (d & Ed & Ec). apply ok_inj in Ec. subst c.
      assert (d = Z.to_N (uh_type u) :: uh_hash u) as ->.
      { apply enc_uh_riv in Ed. apply (proj1 (fields_cons _ _ _)) in Ed as (x & y & X & Y & ->). apply (proj1 (fields_one _ _)) in Y. unfold exactly in Y. subst y.
        apply (enc_byte (Z.to_N (uh_type u)) (uh_type u)) in X; [apply ok_inj in X; subst x; reflexivity | lia | lia]. }
      apply lower_hex; [apply W6 | reflexivity].
  - intros (n & a & b & c & T & -> & A & B & C). assert (N256 : n < 256).
    { destruct A as (P & L). clear - P L. inversion P as [|? ? ? Bl P1|c d t b x y X Y P1]; subst; [inversion L as [|? ? L1 _]; subst; unfold lower_digit in L1; lia|].
      unfold digit_value in X, Y. lia. }
    apply lower_hex in A; [|constructor; [exact N256 | constructor]]. apply HS in B. subst a b. rewrite T, N2Z.id.
    replace (Z.of_N n =? 0)%Z with (n =? 0) by lia. destruct (n =? 0) eqn:T0.
    + apply lower_hex in C; [|exact Z6]. subst c. assert (n = 0) as -> by lia. reflexivity.
    + apply lower_hex in C; [|apply W6]. subst c. assert (E : uh_riv u = Ok (n :: uh_hash u)).
      { apply enc_uh_riv. apply fields_cons. exists [n], (uh_hash u). split; [apply (enc_byte n (uh_type u)); [exact T | exact N256 | reflexivity]|].
        split; [apply fields_one; reflexivity | reflexivity]. }
      rewrite E. cbn [bind]. replace ((0 <=? Z.of_N n) && (Z.of_N n <? 256))%Z with true by lia. reflexivity.
Qed.
Print Assumptions C84_printed.

(** ** Transactions *)
Theorem C84_encoding : forall H t b, binary_encode H t = Ok b <-> written H (fun v s => uh_str H v = Ok s) t b.
Proof. exact written_iff. Qed.
Print Assumptions C84_encoding.
Theorem C84_signed : forall H t xs h, signature_hash H t xs = Ok h <-> exists d, fields (signed H (fun v s => uh_str H v = Ok s) t xs) d /\ h = H d.
Proof.
  intros H t xs h. unfold signature_hash. split.
  - intro E. apply bind_ok in E as (d & Ed & E). apply ok_inj in E. exists d. split; [apply signed_iff; exact Ed | symmetry; exact E].
  - intros (d & Ed & ->). apply signed_iff in Ed. rewrite Ed. reflexivity.
Qed.
Print Assumptions C84_signed.
Theorem C84_id : forall H t b, id_input H t = Ok b <-> identified H (fun v s => uh_str H v = Ok s) t b.
Proof. exact identified_iff. Qed.
Print Assumptions C84_id.
(** a block stake output is numbered by the coin outputs (see C27) *)
Theorem C84_output_id : forall H t i h,
  (coin_outputid H t i = Ok h <-> (0 <= i < Z.of_nat (length (coin_outputs t)))%Z /\ exists d, output_field H (fun v s => uh_str H v = Ok s) false t i d /\ h = H d) /\
  (blockstake_outputid H t i = Ok h <-> (0 <= i < Z.of_nat (length (coin_outputs t)))%Z /\ exists d, output_field H (fun v s => uh_str H v = Ok s) true t i d /\ h = H d).
Proof.
  intros H t i h. unfold coin_outputid, blockstake_outputid.
  destruct ((0 <=? i) && (i <? Z.of_nat (length (coin_outputs t))))%Z eqn:G; cbn [guard bind].
  - split; split.
    1,3: intro E; apply bind_ok in E as (d & Ed & E); apply ok_inj in E; split; [lia|]; exists d; split; [|symmetry; exact E].
    + apply (output_iff H false). exact Ed.
    + apply (output_iff H true). exact Ed.
    + intros (_ & d & Ed & ->). apply (output_iff H false) in Ed. rewrite Ed. reflexivity.
    + intros (_ & d & Ed & ->). apply (output_iff H true) in Ed. rewrite Ed. reflexivity.
  - split; (split; [discriminate | intros (L & _); lia]).
Qed.
Print Assumptions C84_output_id.
(** no two different byte strings are the bytes of one transaction *)
Theorem C84_one : forall H t a b, written H (fun v s => uh_str H v = Ok s) t a -> written H (fun v s => uh_str H v = Ok s) t b -> a = b.
Proof. intros H t a b A B. apply written_iff in A, B. rewrite A in B. injection B as E. exact E. Qed.
Print Assumptions C84_one.

(** ** Cases *)
Definition exv_H (b : bytes) : bytes := le 32 (le_dec (skipn (length b - 32) b)).
Lemma exv_H_ok : hash_ok exv_H.
Proof. intro x. unfold exv_H. split; [apply le_length | apply le_wf]. Qed.
Definition exv_uh : uh := mkuh 1 (repeat 7 32).
(** one coin input of key 5, 2.5 coins to an address, a fee of 0.1 and two bytes of data *)
Definition exv_std (legacy : bool) : txn :=
  T1 (mkstd legacy [mkin (repeat 9 32) (FSingle (mkpk PKEd25519 (repeat 5 32)) (Some (repeat 6 64))) None] [mkout 2500000000 (CUnlockHash exv_uh) []] [] [] [100000000] [104; 105]).
Example C84_ex : written exv_H (fun v s => uh_str exv_H v = Ok s) (exv_std false)
  ([1] ++ [29; 1; 0; 0; 0; 0; 0; 0] ++
   [1; 0; 0; 0; 0; 0; 0; 0] ++ repeat 9 32 ++ [1] ++ [128; 0; 0; 0; 0; 0; 0; 0] ++ (s2b "ed25519" ++ repeat 0 9) ++ [32; 0; 0; 0; 0; 0; 0; 0] ++ repeat 5 32 ++ [64; 0; 0; 0; 0; 0; 0; 0] ++ repeat 6 64 ++
   [1; 0; 0; 0; 0; 0; 0; 0] ++ [4; 0; 0; 0; 0; 0; 0; 0] ++ [149; 2; 249; 0] ++ [1] ++ [33; 0; 0; 0; 0; 0; 0; 0] ++ [1] ++ repeat 7 32 ++
   repeat 0 16 ++ [1; 0; 0; 0; 0; 0; 0; 0] ++ [4; 0; 0; 0; 0; 0; 0; 0] ++ [5; 245; 225; 0] ++ [2; 0; 0; 0; 0; 0; 0; 0] ++ [104; 105]).
Proof. apply C84_encoding. vm_compute. reflexivity. Qed.
Example C84_ex_legacy : exists b, written exv_H (fun v s => uh_str exv_H v = Ok s) (exv_std true) b.
Proof. eexists. apply C84_encoding. vm_compute. reflexivity. Qed.
Example C84_ex_multi : exists u s, paid_to exv_H (fun v s => uh_str exv_H v = Ok s) (CLock 7 (CMulti [mkuh 1 (repeat 7 32); mkuh 1 (repeat 3 32)] 2)) u /\ printed exv_H u s.
Proof.
  destruct (cond_unlockhash exv_H (CLock 7 (CMulti [mkuh 1 (repeat 7 32); mkuh 1 (repeat 3 32)] 2))) as [u|] eqn:E; [|vm_compute in E; discriminate].
  destruct (uh_str exv_H u) as [s|] eqn:S; [|exfalso; vm_compute in E; injection E as <-; vm_compute in S; discriminate].
  exists u, s. split; [apply C84_condition_address; exact E|]. apply C84_printed; [exact exv_H_ok | | exact S].
  apply (proj1 (C84_condition_address _ _ _)) in E. inversion E as [| | |? ? ? P|]; subst. inversion P as [| | | |? ? ? ? r ? ? M]; subst. cbn [uh_hash].
  inversion M; subst; apply le_wf.
Qed.
