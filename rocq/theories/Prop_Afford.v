(** C77: a payment the wallet can afford goes through, and one it cannot afford is refused for that reason. *)
From Verif Require Import Base BaseFacts Encoders EncodersFacts Currency Primitive Types TypesFacts Conditions ConditionFacts ConditionFacts2 Fulfillments FulfilFacts ThreeBotTypes ThreeBotFacts2 Txn TxnFacts TxnFacts3 TxnSign Wallet Ops
  Spec_Types Spec_Fulfil Spec_Txn Spec_Sign Spec_Swap Spec_Wallet Spec_Ops Spec_Fits Spec_Afford AffordFacts AffordFacts2.
From Verif Require Import Prop_Types Prop_Fulfil Prop_Sign Prop_ThreeBot Prop_Wallet Prop_Ops.

(** Sending. *)
Theorem C77_send (H : bytes -> bytes) sign x recipient amount f data : hash_ok H -> (forall k h, length (sign k h) = 64%nat) ->
  ready_to_pay H x f -> fits_cond recipient -> 0 < amount -> (length data <= 83)%nat ->
  goes_through H x f (amount + x_fee x) true (wallet_send H sign x recipient amount f data).
Proof. intros HH S64. apply send_total; assumption. Qed.
Print Assumptions C77_send.

(** Paying many at once. *)
Theorem C77_send_many (H : bytes -> bytes) sign x pays f data : hash_ok H -> (forall k h, length (sign k h) = 64%nat) ->
  ready_to_pay H x f -> Forall (fun p => fits_cond (fst p)) pays -> N.of_nat (length pays) < 1000000 -> (length data <= 83)%nat -> 0 < sum (map snd pays) + x_fee x ->
  goes_through H x f (sum (map snd pays) + x_fee x) true (wallet_send_many H sign x pays f data).
Proof. intros HH S64. apply send_many_total; assumption. Qed.
Print Assumptions C77_send_many.

(** Starting an atomic swap (and submitting, if asked to). *)
Theorem C77_contract (H : bytes -> bytes) sign now x receiver amount secret_hash lock f data submit : hash_ok H -> (forall k h, length (sign k h) = 64%nat) ->
  ready_to_pay H x f -> x_fee x < amount -> Forall (fun o => (length (o_id o) <= 32)%nat) (spendable (wb_own (x_bal x))) -> Forall (fun k => small_key (snd k)) (x_keys x) ->
  (length secret_hash <= 32)%nat -> (500000000 <= lock < 2 ^ 64)%Z -> (length data <= 83)%nat ->
  (uh_type receiver = 0 \/ uh_type receiver = 1)%Z -> (length (uh_hash receiver) <= 32)%nat ->
  (let sender := match refund_to (x_bal x) (x_address x) (f_source f) (f_refund f) with CUnlockHash u => u | _ => x_address x end in
   (uh_type sender = 0 \/ uh_type sender = 1)%Z /\ (length (uh_hash sender) <= 32)%nat) ->
  goes_through H x f (amount + x_fee x) submit (wallet_contract H sign now x receiver amount secret_hash lock f data submit).
Proof. intros HH S64 R A I K L1 L2 L3 T L4 (S1 & S2). apply contract_total; assumption. Qed.
Print Assumptions C77_contract.

(** Withdrawing to an ERC20 address. *)
Theorem C77_erc20_send (H : bytes -> bytes) sign x address a amount f : hash_ok H -> (forall k h, length (sign k h) = 64%nat) ->
  ready_to_pay H x f -> eaddr_new address = Ok a -> 0 < amount ->
  goes_through H x f (x_fee x + amount) true (erc20_send H sign x address amount f).
Proof. intros HH S64. apply erc20_send_total; assumption. Qed.
Print Assumptions C77_erc20_send.

(** Registering an address for ERC20 deposits costs 10 TFT. *)
Theorem C77_erc20_register (H : bytes -> bytes) sign x k u f : hash_ok H -> (forall k h, length (sign k h) = 64%nat) ->
  ready_to_pay H x f -> pk_unlockhash H k = Ok u -> has_key H (x_keys x) u -> small_key k ->
  goes_through H x f (x_fee x + 10 * TFT) true (erc20_register H sign x (Ok k) f).
Proof. intros HH S64. apply erc20_register_total; assumption. Qed.
Print Assumptions C77_erc20_register.

(** Registering a 3Bot costs 90 TFT, the months and 50 TFT for each name but one. *)
Theorem C77_record_new (H : bytes -> bytes) sign ip x months names addrs ns las k u f : hash_ok H -> (forall k h, length (sign k h) = 64%nat) -> ip_ok ip ->
  ready_to_pay H x f -> (1 <= months <= 24)%Z -> (names <> None \/ addrs <> None) ->
  mapM bn_new (given_all names) = Ok ns -> (length ns <= 5)%nat -> mapM (na_new ip) (given_all addrs) = Ok las -> (length las <= 10)%nat ->
  pk_unlockhash H k = Ok u -> has_key H (x_keys x) u -> small_key k ->
  goes_through H x f (x_fee x + (90 * TFT + month_price (Z.to_N months) + 50 * (count ns - 1) * TFT)) true (record_new H sign ip x months names addrs (Ok k) f).
Proof. intros HH S64. apply record_new_total; assumption. Qed.
Print Assumptions C77_record_new.

(** Updating a 3Bot costs the months, 20 TFT for changing addresses and 50 TFT for each new name. *)
Theorem C77_record_update (H : bytes -> bytes) sign ip now rec x id months na nd aa ad lna lnd laa lad r u f : hash_ok H -> (forall k h, length (sign k h) = 64%nat) -> ip_ok ip ->
  ready_to_pay H x f -> (1 <= id < 2 ^ 32)%Z -> (0 <= months <= 24)%Z -> (months <> 0%Z \/ na <> None \/ nd <> None \/ aa <> None \/ ad <> None) ->
  mapM bn_new (given_all na) = Ok lna -> (length lna <= 5)%nat -> mapM bn_new (given_all nd) = Ok lnd -> (length lnd <= 5)%nat ->
  mapM (na_new ip) (given_all aa) = Ok laa -> (length laa <= 10)%nat -> mapM (na_new ip) (given_all ad) = Ok lad -> (length lad <= 10)%nat ->
  rec id = Ok r -> (now < br_expiration r \/ months <> 0)%Z -> pk_unlockhash H (br_key r) = Ok u -> has_key H (x_keys x) u -> 0 < x_fee x ->
  goes_through H x f (x_fee x + (month_price (Z.to_N months) + (if count laa + count lad =? 0 then 0 else 20 * TFT) + 50 * count lna * TFT)) true
    (record_update H sign ip now rec x id months na nd aa ad f).
Proof. intros HH S64. apply record_update_total; assumption. Qed.
Print Assumptions C77_record_update.

(** Transferring names between two 3Bots of the wallet costs 50 TFT for each name. *)
Theorem C77_name_transfer (H : bytes -> bytes) sign ip now rec x sender receiver names ns rs rr us ur f : hash_ok H -> (forall k h, length (sign k h) = 64%nat) ->
  ready_to_pay H x f -> (1 <= sender < 2 ^ 32)%Z -> (1 <= receiver < 2 ^ 32)%Z ->
  mapM bn_new (given_all names) = Ok ns -> (0 < length ns <= 5)%nat -> rec sender = Ok rs -> rec receiver = Ok rr -> (now < br_expiration rs)%Z -> (now < br_expiration rr)%Z ->
  pk_unlockhash H (br_key rs) = Ok us -> pk_unlockhash H (br_key rr) = Ok ur -> us <> ur -> has_key H (x_keys x) us -> has_key H (x_keys x) ur ->
  goes_through H x f (x_fee x + 50 * count ns * TFT) true (name_transfer H sign ip now rec x sender receiver names f).
Proof. intros HH S64. apply name_transfer_total; assumption. Qed.
Print Assumptions C77_name_transfer.

(** A wallet with 1000 TFT and 50 TFT not yet confirmed can pay 1020 TFT, and cannot pay 1050 TFT and the fee. *)
Lemma ex_own u k : In (ex_addr k, ex_key k) ex_ks -> pk_unlockhash ex_H2 (ex_key k) = Ok u -> has_key ex_H2 ex_ks u.
Proof. intros I U. exists (ex_addr k), (ex_key k). auto. Qed.
Example C77_ex_ready : ready_to_pay ex_H2 exo_x exo_f.
Proof.
  split; [exact ex_wallet_ok|]. split; [split; [discriminate|split]|].
  - change (spendable (wb_own (x_bal exo_x))) with [exo_a; exo_b]. constructor; [|constructor; [|constructor]].
    + exists (ex_key_uh 7). split; [left; reflexivity|]. split; [apply (ex_own _ 7); [left; reflexivity|reflexivity]|vm_compute; discriminate].
    + exists (ex_key_uh 8). split; [left; reflexivity|]. split; [apply (ex_own _ 8); [right; left; reflexivity|reflexivity]|vm_compute; discriminate].
  - vm_compute. reflexivity.
  - change (refund_to _ _ _ _) with (CUnlockHash (ex_key_uh 7)). split; [split; vm_compute; congruence|vm_compute; repeat constructor].
Qed.
Example C77_ex : sent (wallet_send ex_H2 ex_sign exo_x (CUnlockHash exw_uh) (1049 * TFT) exo_f []) = Some true /\
  wallet_send ex_H2 ex_sign exo_x (CUnlockHash exw_uh) (1050 * TFT) exo_f [] = Err InsufficientFunds /\
  sent (name_transfer ex_H2 ex_sign exo_ip 1500000000 exo_rec exo_x 7 8 (Some [Some (s2b "gamma")]) exo_f) = Some true /\
  sent (record_new ex_H2 ex_sign exo_ip exo_x 12 (Some [Some (s2b "alpha")]) (Some [Some ex_host]) (Ok (ex_key 7)) exo_f) = Some true.
Proof. repeat split; vm_compute; reflexivity. Qed.
