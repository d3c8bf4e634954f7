(** Theorems about a wallet's ERC20 lookups (C73). *)
From Verif Require Import Base BaseFacts Encoders Currency Primitive Types Conditions Spec_Types TypesFacts TypesFacts2 ConditionFacts ConditionFacts2 Fulfillments
  ThreeBotTypes Txn TxnSign Spec_Sign SignFacts SignFacts2 SignFacts3 Wallet Explorer Lookups Spec_Lookup LookupFacts Erc20Wallet TxnFacts3 Prop_Fulfil Prop_Sign Prop_Txn Prop_Explorer Prop_Lookup.
From Coq Require Import ZifyBool ZifyNat ZifyN.

(** the address text belongs to the wallet *)
Definition mine (ks : keys) (a : pystr) : Prop := In a (map fst ks).

Lemma type_zero H u a : uh_str H u = Ok a -> firstn 2 a = s2b "00" -> uh_type u = 0%Z.
Proof. exact (str_type_zero H (fun _ _ => repeat 0 64) (fun _ _ => eq_refl) u a). Qed.
Section Wallet.
Variable H : bytes -> bytes.
Hypothesis HH : hash_ok H.
Variables (primary : pystr) (ks : keys).
Hypothesis WO : wallet_ok H primary ks.

Lemma own_address a k : In (a, k) ks -> exists u, pk_unlockhash H k = Ok u /\ uh_str H u = Ok a /\ address u /\ uh_type u = 1%Z.
Proof.
  intro I. unfold wallet_ok in WO. rewrite Forall_forall in WO. specialize (WO _ I). cbn [fst snd] in WO. unfold pk_address in WO. apply bind_ok in WO as (u & Eu & Es).
  exists u. split; [exact Eu|]. split; [exact Es|]. unfold pk_unlockhash in Eu. apply bind_ok in Eu as (d & _ & Eu). apply ok_inj in Eu. subst u. split; [|reflexivity].
  split; [cbn; auto|]. cbn [uh_hash uh_type]. split; [exact (HH d) | discriminate].
Qed.
Lemma own_01 a k : In (a, k) ks -> listN_eqb (firstn 2 a) (s2b "00") = false.
Proof.
  intro I. destruct (own_address _ _ I) as (u & _ & Es & _ & T). destruct (listN_eqb _ _) eqn:E; [|reflexivity]. apply listN_eqb_eq in E. apply (type_zero _ _ _ Es) in E. congruence.
Qed.
Lemma kfind_in a k : kfind a ks = Some k -> In (a, k) ks.
Proof.
  clear. induction ks as [|[b x] l IH]; [discriminate|]. cbn [kfind]. destruct (listN_eqb a b) eqn:E.
  - intro X. injection X as ->. apply listN_eqb_eq in E. subst. now left.
  - intro X. right. exact (IH X).
Qed.
Lemma kfind_mine a : mine ks a -> exists k, kfind a ks = Some k.
Proof.
  clear. unfold mine. induction ks as [|[b x] l IH]; intro I; [destruct I|]. cbn [kfind]. destruct (listN_eqb a b) eqn:E; [eauto|]. destruct I as [I|I]; [cbn [fst] in I; subst; rewrite listN_eqb_refl in E; discriminate | exact (IH I)].
Qed.
Lemma kfind_not a : ~ mine ks a -> kfind a ks = None.
Proof. intro N. destruct (kfind a ks) eqn:E; [|reflexivity]. apply kfind_in in E. destruct N. apply (in_map fst) in E. exact E. Qed.
Lemma own_found a : mine ks a -> exists k u, key_pair_get primary ks a = Some k /\ In (a, k) ks /\ pk_unlockhash H k = Ok u /\ uh_str H u = Ok a /\ address u /\ uh_type u = 1%Z.
Proof.
  intro M. destruct (kfind_mine _ M) as (k & E). pose proof (kfind_in _ _ E) as I. destruct (own_address _ _ I) as (u & Eu & Es & A & T).
  exists k, u. split; [unfold key_pair_get; rewrite (own_01 _ _ I); exact E|]. auto.
Qed.
Lemma own_get addrs net a v : mine ks a -> (own_key H primary ks addrs AddressNotInWallet v = match key_pair_get primary ks a with Some k => Ok k | None => Err KeyError end) ->
  wallet_erc20_get H primary ks addrs net v = erc20_address_get H net (UStr a).
Proof.
  intros M E. destruct (own_found a M) as (k & u & Ek & _ & Eu & Es & A & _). unfold wallet_erc20_get. rewrite E, Ek. cbn [bind]. rewrite Eu. cbn [bind]. symmetry. exact (C69_text H net u a HH A Es).
Qed.
End Wallet.

(** ** C73 *)
(** However an address of the wallet is given, the lookup is that of the address. *)
Theorem C73_own : forall H primary ks addrs net a, hash_ok H -> wallet_ok H primary ks -> mine ks a ->
  wallet_erc20_get H primary ks addrs net (EText a) = erc20_address_get H net (UStr a) /\
  (forall u, uh_str H u = Ok a -> wallet_erc20_get H primary ks addrs net (EAddr u) = erc20_address_get H net (UStr a)) /\
  (forall n, nth_error addrs n = Some a -> wallet_erc20_get H primary ks addrs net (EIndex (Z.of_nat n)) = erc20_address_get H net (UStr a)) /\
  (a = primary -> wallet_erc20_get H primary ks addrs net ENone = erc20_address_get H net (UStr a)).
Proof.
  intros H primary ks addrs net a HH WO M. destruct (own_found H HH primary ks WO a M) as (k & u & Ek & _). split; [|split; [|split]].
  - apply (own_get H HH primary ks WO); [exact M|]. cbn [own_key]. rewrite Ek. reflexivity.
  - intros v Ev. apply (own_get H HH primary ks WO); [exact M|]. cbn [own_key]. rewrite Ev. cbn [bind]. rewrite Ek. reflexivity.
  - intros n N. apply (own_get H HH primary ks WO); [exact M|]. cbn [own_key]. assert (L : (n < length addrs)%nat) by (apply nth_error_Some; congruence).
    replace ((Z.of_nat n <? 0) || (Z.of_nat (length addrs) <=? Z.of_nat n))%Z with false by lia. rewrite Nat2Z.id, N. reflexivity.
  - intros ->. apply (own_get H HH primary ks WO); [exact M|]. cbn [own_key]. rewrite Ek. reflexivity.
Qed.
Print Assumptions C73_own.
(** Other addresses are refused without a request, as are indices out of range. *)
Theorem C73_refused : forall H primary ks addrs, hash_ok H -> wallet_ok H primary ks ->
  (forall u s, address u -> uh_type u <> 0%Z -> uh_str H u = Ok s -> ~ mine ks s -> forall net,
     wallet_erc20_get H primary ks addrs net (EText s) = Err AddressNotInWallet /\ wallet_erc20_get H primary ks addrs net (EAddr u) = Err AddressNotInWallet) /\
  (forall z net, (z < 0 \/ Z.of_nat (length addrs) <= z)%Z -> wallet_erc20_get H primary ks addrs net (EIndex z) = Err ValueError) /\
  (forall net, wallet_erc20_get H primary ks addrs net EBad = Err ValueError).
Proof.
  intros H primary ks addrs HH WO. split; [|split; [|reflexivity]].
  - intros u s A T Es N net. assert (K : key_pair_get primary ks s = None).
    { unfold key_pair_get. destruct (listN_eqb (firstn 2 s) (s2b "00")) eqn:E; [apply listN_eqb_eq in E; apply (type_zero _ _ _ Es) in E; congruence|]. exact (kfind_not ks s N). }
    destruct (address_json H u HH A) as (s' & Es' & R). rewrite Es in Es'. apply ok_inj in Es'. subst s'. unfold wallet_erc20_get. cbn [own_key]. rewrite K, R, Es. cbn [bind]. rewrite K. split; reflexivity.
  - intros z net L. unfold wallet_erc20_get. cbn [own_key]. replace ((z <? 0) || (Z.of_nat (length addrs) <=? z))%Z with true by lia. reflexivity.
Qed.
Print Assumptions C73_refused.
(** All registrations: one entry for each registered address, in the order of the addresses, and none for the others. *)
Theorem C73_all : forall H net l r, wallet_erc20_gets H net l = Ok r <->
  exists os, Forall2 (fun a o => erc20_address_get H net (UStr a) = match o with Some i => Ok i | None => Err ExplorerNoContent end) l os /\
             r = flat_map (fun o => match o with Some i => [i] | None => [] end) os.
Proof.
  intros H net. induction l as [|a l IH]; intro r; cbn [wallet_erc20_gets].
  - split; [intro E; apply ok_inj in E; subst; exists []; split; [constructor | reflexivity]|]. intros (os & F & ->). inversion F. reflexivity.
  - split.
    + intro E. destruct (erc20_address_get H net (UStr a)) as [i|e] eqn:G.
      * apply bind_ok in E as (is & Ei & E). apply ok_inj in E. subst r. apply IH in Ei as (os & F & ->). exists (Some i :: os). split; [constructor; assumption | reflexivity].
      * destruct e; try discriminate E. apply IH in E as (os & F & ->). exists (None :: os). split; [constructor; assumption | reflexivity].
    + intros (os & F & ->). inversion F as [|? o ? os' G F']; subst. rewrite G. destruct o as [i|]; cbn [flat_map app].
      * assert (wallet_erc20_gets H net l = Ok (flat_map (fun o => match o with Some i => [i] | None => [] end) os')) as -> by (apply IH; eauto). reflexivity.
      * apply IH. eauto.
Qed.
Print Assumptions C73_all.
(** ... so it is available whenever each address is either registered or not known to be. *)
Theorem C73_all_fails : forall H net l e, wallet_erc20_gets H net l = Err e -> exists a, In a l /\ erc20_address_get H net (UStr a) = Err e /\ e <> ExplorerNoContent.
Proof.
  intros H net. induction l as [|a l IH]; intros e E; [discriminate E|]. cbn [wallet_erc20_gets] in E. destruct (erc20_address_get H net (UStr a)) as [i|x] eqn:G.
  - apply bind_err in E as [E|(is & _ & E)]; [|discriminate E]. destruct (IH _ E) as (b & I & Q). exists b. split; [now right | exact Q].
  - destruct x; try (injection E as <-; exists a; split; [now left|]; split; [exact G | discriminate]).
    destruct (IH _ E) as (b & I & Q). exists b. split; [now right | exact Q].
Qed.
Print Assumptions C73_all_fails.
(** What is registered ([address_register]) is the key of the address given. *)
Theorem C73_registered_key : forall H primary ks addrs missing v k, hash_ok H -> wallet_ok H primary ks -> own_key H primary ks addrs missing v = Ok k ->
  exists a, In (a, k) ks /\ pk_address H k = Ok a /\
    match v with
    | ENone => a = primary
    | EText s => s = a \/ a = primary /\ firstn 2 s = s2b "00"
    | EAddr u => uh_str H u = Ok a \/ a = primary /\ uh_type u = 0%Z
    | EIndex z => nth_error addrs (Z.to_nat z) = Some a \/ a = primary
    | EBad => False
    end.
Proof.
  intros H primary ks addrs missing v k HH WO E.
  assert (G : forall s k, key_pair_get primary ks s = Some k -> exists a, In (a, k) ks /\ pk_address H k = Ok a /\ (s = a \/ a = primary /\ firstn 2 s = s2b "00")).
  { intros s k0 K. unfold key_pair_get in K. destruct (listN_eqb (firstn 2 s) (s2b "00")) eqn:Q; apply kfind_in in K; unfold wallet_ok in WO; rewrite Forall_forall in WO; pose proof (WO _ K) as P; cbn [fst snd] in P.
    - apply listN_eqb_eq in Q. exists primary. auto.
    - exists s. auto. }
  destruct v as [|s|u|z|]; cbn [own_key] in E.
  - destruct (key_pair_get primary ks primary) as [k'|] eqn:K; [|discriminate E]. apply ok_inj in E. subst k'. apply G in K as (a & I & P & Q). exists a. repeat split; auto. destruct Q as [->|(-> & _)]; reflexivity.
  - destruct (key_pair_get primary ks s) as [k'|] eqn:K; [|apply bind_ok in E as (? & _ & E); discriminate E]. apply ok_inj in E. subst k'. apply G in K as (a & I & P & Q). exists a. auto.
  - apply bind_ok in E as (s & Es & E). destruct (key_pair_get primary ks s) as [k'|] eqn:K; [|discriminate E]. apply ok_inj in E. subst k'. apply G in K as (a & I & P & Q). exists a. repeat split; auto.
    destruct Q as [->|(-> & Q)]; [now left|]. right. split; [reflexivity|]. exact (type_zero _ _ _ Es Q).
  - destruct (_ : bool) in E; [discriminate E|]. destruct (nth_error addrs (Z.to_nat z)) as [s|]; [|discriminate E]. destruct (key_pair_get primary ks s) as [k'|] eqn:K; [|discriminate E].
    apply ok_inj in E. subst k'. apply G in K as (a & I & P & Q). exists a. repeat split; auto. destruct Q as [->|(-> & _)]; auto.
  - discriminate E.
Qed.
Print Assumptions C73_registered_key.
(** *** Example: a wallet of two addresses, the second one registered *)
Definition exr_net (e : pystr) : res json :=
  if listN_eqb e (hashes (ex_addr 8)) then Ok (JObj [("hashtype"%string, JStr (s2b "unlockhash"));
    ("erc20info"%string, JObj [("tftaddress"%string, JStr (ex_addr 8)); ("erc20address"%string, prefixed_json (repeat 7 20)); ("confirmations"%string, JNum 30)])])
  else Err ExplorerNoContent.
Example C73_ex : wallet_ok ex_H2 (ex_addr 7) ex_ks /\ mine ex_ks (ex_addr 8) /\
  wallet_erc20_gets ex_H2 exr_net (map fst ex_ks) = Ok [(ex_key_uh 8, repeat 7 20, 30%Z)] /\
  wallet_erc20_get ex_H2 (ex_addr 7) ex_ks (map fst ex_ks) exr_net (EIndex 1) = Ok (ex_key_uh 8, repeat 7 20, 30%Z) /\
  wallet_erc20_get ex_H2 (ex_addr 7) ex_ks (map fst ex_ks) exr_net ENone = Err ExplorerNoContent.
Proof.
  split; [exact ex_wallet_ok|]. split; [right; left; reflexivity|]. split; [vm_compute; reflexivity|]. split; vm_compute; reflexivity.
Qed.
(** Refuted: the address has to be one of the wallet, but any text which begins with 00 is taken for the primary address. *)
Theorem C73_nil_refuted : forall H primary ks addrs net t, hash_ok H -> wallet_ok H primary ks -> mine ks primary ->
  wallet_erc20_get H primary ks addrs net (EText (s2b "00" ++ t)) = erc20_address_get H net (UStr primary) /\ ~ mine ks (s2b "00" ++ t).
Proof.
  intros H primary ks addrs net t HH WO M. destruct (own_found H HH primary ks WO _ M) as (k & u & Ek & I & _). split.
  - apply (own_get H HH primary ks WO); [exact M|]. cbn [own_key]. rewrite Ek. unfold key_pair_get in Ek |- *. rewrite (own_01 H HH primary ks WO _ _ I) in Ek. change (listN_eqb (firstn 2 (s2b "00" ++ t)) (s2b "00")) with true. cbv iota. rewrite Ek. reflexivity.
  - intro N. destruct (own_found H HH primary ks WO _ N) as (k' & ? & _ & I' & _). pose proof (own_01 H HH primary ks WO _ _ I') as Q. discriminate Q.
Qed.
Print Assumptions C73_nil_refuted.
