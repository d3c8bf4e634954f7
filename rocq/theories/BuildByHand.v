(** Facts about building transactions by hand (C85). *)
From Verif Require Import Base BaseFacts Encoders Primitive Types Conditions Fulfillments Currency ThreeBotTypes Txn TxnBuild Spec_Types Spec_Currency Spec_Amounts Spec_ERC20 Spec_Texts Spec_ThreeBot Spec_Build
  TypesFacts FulfilFacts CurrencyFacts CurrencyFacts2 RoundFacts Prop_Amounts Prop_ERC20Valid Prop_Texts Prop_ThreeBot Prop_Front.
From Coq Require Import ZifyBool ZifyNat ZifyN.
Ltac Zify.zify_post_hook ::= Z.div_mod_to_equations.

(** ** Values *)
Lemma size_guard n z (b : bytes) : (z > 0)%Z -> n = Z.to_nat z -> bd_size_ok (Some (Z.to_N z)) b = true <-> of_size n b.
Proof.
  intros P ->. unfold bd_size_ok, of_size, lenN. destruct b as [|x b]; cbn [length].
  - split; [auto|reflexivity].
  - rewrite orb_true_iff, !N.eqb_eq. split; [intros [E|E]; [lia|right; lia]|intros [[=]|E]; right; lia].
Qed.
Lemma bd_given (text : pystr -> bytes -> Prop) k n z enc : (z > 0)%Z -> n = Z.to_nat z -> strkind_of (Some enc) = Ok k -> (forall s b, from_str k s = Ok b <-> text s b) ->
  forall v b, (do d <- bd_new v (Some z) (Some enc); Ok (bd_val d)) = Ok b <-> bytes_given text n v b.
Proof.
  intros P En K T v b. unfold bd_new. rewrite K. cbn [bind]. rewrite (proj2 (Z.leb_le 0 z)) by lia. cbn [guard bind].
  assert (E : (match z with 0%Z => do d <- bd_set (mkbd None (Some enc) []) v; Ok (mkbd (Some (lenN (bd_val d))) (Some enc) (bd_val d)) | _ => bd_set (mkbd (Some (Z.to_N z)) (Some enc) []) v end) = bd_set (mkbd (Some (Z.to_N z)) (Some enc) []) v) by (destruct z; [lia|reflexivity|reflexivity]).
  rewrite E. clear E. unfold bd_set. cbn [bd_enc bd_size]. unfold bd_kind. rewrite K.
  assert (X : forall (r : res bytes), (do d <- (do b0 <- r; do _ <- guard (bd_size_ok (Some (Z.to_N z)) b0) ValueError; Ok (mkbd (Some (Z.to_N z)) (Some enc) b0)); Ok (bd_val d)) = Ok b <-> r = Ok b /\ of_size n b).
  { intro r. destruct r as [x|e]; cbn [bind]; [|split; [discriminate|intros ([=] & _)]].
    destruct (bd_size_ok (Some (Z.to_N z)) x) eqn:G; cbn [guard bind bd_val].
    - apply (size_guard n z x P En) in G. split; [intro E; apply ok_inj in E; subst; auto|intros (E & _); exact E].
    - split; [discriminate|]. intros (E & S0). apply ok_inj in E. subst x. apply (size_guard n z b P En) in S0. congruence. }
  rewrite X. clear X. destruct v as [|s|x|d|]; cbn [bd_norm bytes_given].
  - split; [intros (E & _); apply ok_inj in E; auto|intros ->; split; [reflexivity|left; reflexivity]].
  - rewrite (T s b). reflexivity.
  - split; [intros (E & S0); apply ok_inj in E; subst; auto|intros (-> & S0); auto].
  - split; [intros (E & S0); apply ok_inj in E; subst; auto|intros (-> & S0); auto].
  - split; [intros ([=] & _)|contradiction].
Qed.
Lemma hash_arg_iff v b : hash_new v = Ok b <-> hash_given v b.
Proof. apply (bd_given Spec_ERC20.pairs KHex); [lia|reflexivity|reflexivity|]. intros s x. cbn [from_str]. symmetry. apply pairs_iff. Qed.
Lemma sig_arg_iff v b : sig_new v = Ok b <-> bytes_given Spec_ERC20.pairs 64 v b.
Proof. apply (bd_given Spec_ERC20.pairs KHex); [lia|reflexivity|reflexivity|]. intros s x. cbn [from_str]. symmetry. apply pairs_iff. Qed.
Lemma prefixed_iff s b : from_str KHexPrefix s = Ok b <-> ethereum_text s b.
Proof.
  unfold ethereum_text. destruct (prefix_dec s) as (t & A). destruct (Prop_ERC20.drop_0x_spec s t A) as (D & E). split.
  - intro F. exists t. split; [exact A|]. apply pairs_iff. now rewrite <- E.
  - intros (t' & A' & Q). destruct (Prop_ERC20.drop_0x_spec s t' A') as (D' & E'). rewrite E'. now apply pairs_iff.
Qed.
Lemma eaddr_iff v b : eaddr_new v = Ok b <-> bytes_given ethereum_text 20 v b.
Proof. apply (bd_given ethereum_text KHexPrefix); [lia|reflexivity|reflexivity|exact prefixed_iff]. Qed.
Lemma ehash_iff v b : ehash_new v = Ok b <-> bytes_given ethereum_text 32 v b.
Proof. apply (bd_given ethereum_text KHexPrefix); [lia|reflexivity|reflexivity|exact prefixed_iff]. Qed.

Lemma money_iff v n : money_arg v = Ok n <-> amount_given v n.
Proof.
  unfold money_arg. destruct v as [|c|z|s|d|]; cbn [cset amount_given].
  - cbn [bind]. split; [intro E; apply ok_inj in E; subst n; reflexivity|intros ->; reflexivity].
  - cbn [bind cvalue]. split; [intro E; apply ok_inj in E; auto|intros ->; reflexivity].
  - destruct (0 <=? z)%Z eqn:S0.
    + destruct (cset_int z) as (c & E & V & U); [lia|]. cbn [cset] in E. rewrite E. cbn [bind].
      change (scaled9 (cvalue c)) with (units c). rewrite U. split; [intro X; apply ok_inj in X; split; [lia|rewrite <- X; reflexivity]|intros (_ & ->); reflexivity].
    + split; [|lia]. unfold check_dec, dec_of_Z. cbn [dexp dneg]. cbn [Z.ltb Z.compare]. replace (z <? 0)%Z with true by lia. discriminate.
  - change (do d <- parse_dec (strip_unit s); check_dec d) with (cset (CIStr s)). rewrite <- C82_text. split.
    + intro E. apply bind_ok in E as (c & E & X). apply ok_inj in X. exists c. split; [exact E|]. rewrite <- X. apply valid_amount, (cset_valid _ c E). discriminate.
    + intros (c & E & A). rewrite E. cbn [bind]. f_equal. symmetry. apply amount_units; [apply (cset_valid _ c E); discriminate|exact A].
  - destruct d as [d|]; [|split; [discriminate|contradiction]]. rewrite <- check_dec_amount. split.
    + intro E. apply bind_ok in E as (c & E & X). apply ok_inj in X. exists c. split; [exact E|]. rewrite <- X. apply valid_amount, (cset_valid (CIDec (DFin d)) c E). discriminate.
    + intros (c & E & A). rewrite E. cbn [bind]. f_equal. symmetry. apply amount_units; [apply (cset_valid (CIDec (DFin d)) c E); discriminate|exact A].
  - split; [discriminate|contradiction].
Qed.
Lemma coin_iff v n : coin_arg v = Ok n <-> amount_given v n.
Proof. rewrite <- money_iff. destruct v; reflexivity. Qed.
Lemma stake_iff v n : stake_arg v = Ok n <-> stakes_given v n.
Proof.
  destruct v as [m|[|z|s|]]; cbn [stake_arg stakes_given].
  - split; [intro E; apply ok_inj in E; auto|intros ->; reflexivity].
  - cbn [bsset]. split; [intro E; apply ok_inj in E; auto|intros ->; reflexivity].
  - cbn [bsset]. destruct (z <? 0)%Z eqn:S0; [split; [discriminate|lia]|]. split; [intro E; apply ok_inj in E; lia|intro E; f_equal; lia].
  - apply C82_stakes.
  - split; [discriminate|contradiction].
Qed.
Lemma fee_iff v o : fee_arg v = Ok o <-> fee_given v o.
Proof.
  unfold fee_given, maybe. assert (X : forall w, w <> CINone -> (do n <- money_arg w; Ok (Some n)) = Ok o <-> (w = CINone /\ o = None) \/ (w <> CINone /\ exists b, o = Some b /\ amount_given w b)).
  { intros w NW. split.
    - intro E. apply bind_ok in E as (n & E & Y). apply ok_inj in Y. subst o. right. split; [exact NW|]. exists n. split; [reflexivity|now apply money_iff].
    - intros [(Z0 & _)|(_ & n & -> & A)]; [contradiction|]. apply money_iff in A. rewrite A. reflexivity. }
  destruct v; cbn [fee_arg]; try (apply X; discriminate). split; [intro E; apply ok_inj in E; auto|]. intros [(_ & ->)|(C & _)]; [reflexivity|congruence].
Qed.
Lemma signature_iff v o : sign_arg v = Ok o <-> signature_given v o.
Proof.
  unfold signature_given, maybe. assert (X : forall w, w <> BVNone -> (do n <- sig_new w; Ok (Some (true, n))) = Ok o <-> (w = BVNone /\ o = None) \/ (w <> BVNone /\ exists b, o = Some b /\ fst b = true /\ bytes_given Spec_ERC20.pairs 64 w (snd b))).
  { intros w NW. split.
    - intro E. apply bind_ok in E as (n & E & Y). apply ok_inj in Y. subst o. right. split; [exact NW|]. exists (true, n). split; [reflexivity|]. split; [reflexivity|now apply sig_arg_iff].
    - intros [(Z0 & _)|(_ & (b & n) & -> & A & B)]; [contradiction|]. cbn [fst snd] in *. subst b. apply sig_arg_iff in B. rewrite B. reflexivity. }
  destruct v; cbn [sign_arg]; try (apply X; discriminate). split; [intro E; apply ok_inj in E; auto|]. intros [(_ & ->)|(C & _)]; [reflexivity|congruence].
Qed.
Lemma condition_iff v c : cond_arg v = Ok c <-> condition_given v c.
Proof. unfold condition_given. destruct v; cbn [cond_arg]; (split; [intro E; first [discriminate|apply ok_inj in E; subst; auto]|intros [E|(E & X)]; first [discriminate E|injection E as ->; reflexivity|subst; reflexivity]]). Qed.
Lemma fulfilment_iff v f : ff_arg v = Ok f <-> fulfilment_given v f.
Proof. unfold fulfilment_given. destruct v; cbn [ff_arg]; (split; [intro E; first [discriminate|apply ok_inj in E; subst; auto]|intros [E|(E & X)]; first [discriminate E|injection E as ->; reflexivity|subst; reflexivity]]). Qed.
Lemma mint_cond_iff v o : mint_cond_arg v = Ok o <-> maybe CGNone condition_given v o.
Proof.
  unfold maybe, condition_given. destruct v as [|c|]; cbn [mint_cond_arg].
  - split; [intro E; apply ok_inj in E; auto|]. intros [(_ & ->)|(C & _)]; [reflexivity|congruence].
  - split; [intro E; apply ok_inj in E; subst o; right; split; [discriminate|eauto]|]. intros [([=] & _)|(_ & b & -> & [[= ->]|([=] & _)])]. reflexivity.
  - split; [discriminate|]. intros [([=] & _)|(_ & b & -> & [[=]|([=] & _)])].
Qed.
Lemma mint_ff_iff v o : mint_ff_arg v = Ok o <-> maybe FGNone fulfilment_given v o.
Proof.
  unfold maybe, fulfilment_given. destruct v as [|c|]; cbn [mint_ff_arg].
  - split; [intro E; apply ok_inj in E; auto|]. intros [(_ & ->)|(C & _)]; [reflexivity|congruence].
  - split; [intro E; apply ok_inj in E; subst o; right; split; [discriminate|eauto]|]. intros [([=] & _)|(_ & b & -> & [[= ->]|([=] & _)])]. reflexivity.
  - split; [discriminate|]. intros [([=] & _)|(_ & b & -> & [[=]|([=] & _)])].
Qed.
Lemma key_iff v o : key_arg v = Ok o <-> key_given v o.
Proof.
  unfold key_given. destruct v as [|k|]; cbn [key_arg].
  - split; [intro E; apply ok_inj in E; auto|]. intros [(_ & ->)|(k & [=] & _)]. reflexivity.
  - split; [intro E; apply ok_inj in E; subst o; right; exists k; destruct k; auto|]. intros [([=] & _)|(k' & [= <-] & ->)]. destruct k. reflexivity.
  - split; [discriminate|]. intros [([=] & _)|(k' & [=] & _)].
Qed.
Lemma bot_iff v z : bot_arg v = Ok z <-> bot_given v z.
Proof.
  unfold bot_given. destruct v as [|x|]; cbn [bot_arg].
  - split; [intro E; apply ok_inj in E; auto|]. intros [(_ & ->)|([=] & _)]. reflexivity.
  - destruct (x <=? 0)%Z eqn:S0; (split; [first [discriminate|intro E; apply ok_inj in E; subst; right; split; [reflexivity|lia]]|]; intros [([=] & _)|([= ->] & P)]; [first [lia|reflexivity]]).
  - split; [discriminate|]. intros [([=] & _)|([=] & _)].
Qed.
Lemma months_iff least v z : months_arg least v = Ok z <-> months_given least v z.
Proof.
  unfold months_given. destruct v as [x|]; cbn [months_arg]; [|split; [discriminate|intros ([=] & _)]].
  destruct ((x <? least) || (24 <? x))%Z eqn:S0; (split; [first [discriminate|intro E; apply ok_inj in E; subst; split; [reflexivity|lia]]|]; intros ([= ->] & P); first [lia|reflexivity]).
Qed.
Lemma attached_iff v b : TxnBuild.data_arg v = Ok b <-> attached v b.
Proof.
  unfold attached, TxnBuild.data_arg.
  assert (X : forall (r : res bytes), (do x <- r; do _ <- guard (lenN x <=? 83) ValueError; Ok x) = Ok b <-> r = Ok b /\ (length b <= 83)%nat).
  { intro r. destruct r as [x|e]; cbn [bind]; [|split; [discriminate|intros ([=] & _)]]. destruct (lenN x <=? 83) eqn:G; cbn [guard bind]; unfold lenN in G.
    - split; [intro E; apply ok_inj in E; subst; split; [reflexivity|lia]|intros (E & _); exact E].
    - split; [discriminate|]. intros (E & L). apply ok_inj in E. subst. lia. }
  destruct v as [|s|x|d|]; [|rewrite X|rewrite X|rewrite X|rewrite X]; clear X.
  - split; [intro E; apply ok_inj in E; auto|]. intros [(_ & ->)|(_ & [[=]|[(d & [=] & _)|(s & [=] & _)]])]. reflexivity.
  - split; [intros (E & L); right; split; [exact L|]; right; right; eauto|]. intros [([=] & _)|(L & [[=]|[(d & [=] & _)|(s' & [= <-] & U)]])]. auto.
  - split; [intros (E & L); apply ok_inj in E; subst x; right; auto|]. intros [([=] & _)|(L & [[= ->]|[(d & [=] & _)|(s' & [=] & U)]])]. auto.
  - split; [intros (E & L); apply ok_inj in E; right; split; [exact L|]; right; left; eauto|]. intros [([=] & _)|(L & [[=]|[(d' & [= <-] & ->)|(s' & [=] & U)]])]. auto.
  - split; [intros ([=] & _)|]. intros [([=] & _)|(L & [[=]|[(d & [=] & _)|(s' & [=] & U)]])].
Qed.
Lemma name_iff v s : name_arg v = Ok s <-> name_given v s.
Proof.
  unfold name_given, name_text. destruct v as [[x|]|x|]; cbn [name_arg].
  - rewrite C56_accepts. split; [intros (-> & L & M); right; auto|]. intros [([=] & _)|([= ->] & L & M)]. auto.
  - cbn [bn_new]. split; [intro E; apply ok_inj in E; auto|]. intros [(_ & ->)|([=] & _)]. reflexivity.
  - split; [discriminate|]. intros [([=] & _)|([=] & _)].
  - split; [discriminate|]. intros [([=] & _)|([=] & _)].
Qed.
Lemma address_iff parse v a : addr_arg parse v = Ok a <-> address_given parse v a.
Proof.
  unfold address_given. destruct v as [[[s|]|z|x]|]; cbn [addr_arg na_value].
  - rewrite C43_accepts. split; [intro C; right; left; eauto|]. intros [([=] & _)|[(s' & [= <-] & C)|[(z & p & [=] & _)|([=] & _)]]]. exact C.
  - cbn [na_new]. split; [intro E; apply ok_inj in E; left; auto|]. intros [(_ & ->)|[(s' & [=] & C)|[(z & p & [=] & _)|([=] & _)]]]. reflexivity.
  - split; [intro E; apply bind_ok in E as (p & E & X); apply ok_inj in X; right; right; left; eauto 6|]. intros [([=] & _)|[(s' & [=] & C)|[(z' & p & [= <-] & E & ->)|([=] & _)]]]. rewrite E. reflexivity.
  - destruct (na_type x =? 0) eqn:T.
    + split; [intro E; apply ok_inj in E; subst x; right; right; right; split; [reflexivity|lia]|]. intros [([=] & _)|[(s' & [=] & C)|[(z' & p & [=] & E & _)|([= ->] & _)]]]. reflexivity.
    + split; [discriminate|]. intros [([=] & _)|[(s' & [=] & C)|[(z' & p & [=] & E & _)|([= ->] & Y)]]]. lia.
  - split; [discriminate|]. intros [([=] & _)|[(s' & [=] & C)|[(z' & p & [=] & E & _)|([=] & _)]]].
Qed.
Lemma uh_iff H v u : hash_ok H -> uh_arg H v = Ok u <-> uh_given H v u.
Proof.
  intro HO. unfold uh_given. destruct v as [x|[|s|x|d|]]; cbn [uh_arg].
  - split; [intro E; apply ok_inj in E; subst; auto|]. intros [[= ->]|[([=] & _)|(s & [=] & _)]]. reflexivity.
  - split; [intro E; apply ok_inj in E; subst; auto|]. intros [[=]|[(_ & ->)|(s & [=] & _)]]. reflexivity.
  - rewrite (C83_address H s u HO). split; [eauto|]. intros [[=]|[([=] & _)|(s' & [= <-] & A)]]. exact A.
  - split; [discriminate|]. intros [[=]|[([=] & _)|(s' & [=] & A)]].
  - split; [discriminate|]. intros [[=]|[([=] & _)|(s' & [=] & A)]].
  - split; [discriminate|]. intros [[=]|[([=] & _)|(s' & [=] & A)]].
Qed.
Lemma eaddr_arg_iff v a : eaddr_arg v = Ok a <-> exists w, v = UGVal w /\ bytes_given ethereum_text 20 w a.
Proof. destruct v as [u|v]; cbn [eaddr_arg]; [split; [discriminate|intros (w & [=] & _)]|]. rewrite eaddr_iff. split; [eauto|]. intros (w & [= <-] & B). exact B. Qed.
Lemma output_iff v c i o : output_new v c i = Ok o <-> output_given v c i o.
Proof.
  unfold output_new, output_given. split.
  - intro E. apply bind_ok in E as (n & A & E). apply bind_ok in E as (k & B & E). apply bind_ok in E as (h & D & E). apply ok_inj in E. subst o. cbn [o_value o_cond o_id].
    split; [now apply coin_iff|]. split; [now apply condition_iff|now apply hash_arg_iff].
  - intros (A & B & D). apply coin_iff in A. apply condition_iff in B. apply hash_arg_iff in D. rewrite A. cbn [bind]. rewrite B. cbn [bind]. rewrite D. cbn [bind]. destruct o; reflexivity.
Qed.
Lemma stake_output_iff v c i o : stake_output_new v c i = Ok o <-> stake_output_given v c i o.
Proof.
  unfold stake_output_new, stake_output_given. split.
  - intro E. apply bind_ok in E as (n & A & E). apply bind_ok in E as (k & B & E). apply bind_ok in E as (h & D & E). apply ok_inj in E. subst o. cbn [o_value o_cond o_id].
    split; [now apply stake_iff|]. split; [now apply condition_iff|now apply hash_arg_iff].
  - intros (A & B & D). apply stake_iff in A. apply condition_iff in B. apply hash_arg_iff in D. rewrite A. cbn [bind]. rewrite B. cbn [bind]. rewrite D. cbn [bind]. destruct o; reflexivity.
Qed.
Lemma input_iff p f x i : input_new p f x = Ok i <-> input_given p f x i.
Proof.
  unfold input_new, input_given, parent_given. split.
  - intro E. apply bind_ok in E as (n & A & E). apply bind_ok in E as (k & B & E). apply bind_ok in E as (h & D & E). apply ok_inj in E. subst i. cbn [i_parent i_ff i_out].
    split; [now apply hash_arg_iff|]. split; [now apply fulfilment_iff|]. destruct x as [|o|]; [apply ok_inj in D; auto|apply ok_inj in D; eauto|discriminate].
  - intros (A & B & D). apply hash_arg_iff in A. apply fulfilment_iff in B. rewrite A. cbn [bind]. rewrite B. cbn [bind].
    destruct i as [ip ig io]. cbn [i_out i_parent i_ff] in *. destruct D as [(-> & ->)|(o & -> & ->)]; reflexivity.
Qed.
Lemma stake_input_iff p f x i : stake_input_new p f x = Ok i <-> stake_input_given p f x i.
Proof.
  unfold stake_input_new, stake_input_given, stake_parent_given. split.
  - intro E. apply bind_ok in E as (n & A & E). apply bind_ok in E as (k & B & E). apply bind_ok in E as (h & D & E). apply ok_inj in E. subst i. cbn [i_parent i_ff i_out].
    split; [now apply hash_arg_iff|]. split; [now apply fulfilment_iff|]. destruct x as [|o|]; [apply ok_inj in D; left; split; [reflexivity|rewrite <- D; reflexivity]|apply ok_inj in D; subst; eauto|discriminate].
  - intros (A & B & D). apply hash_arg_iff in A. apply fulfilment_iff in B. rewrite A. cbn [bind]. rewrite B. cbn [bind].
    destruct i as [ip ig io]. cbn [i_out i_parent i_ff] in *. destruct D as [(-> & ->)|(o & -> & ->)]; reflexivity.
Qed.
Lemma input_copy_iff v i : input_copy v = Ok i <-> copied_input v i.
Proof.
  unfold copied_input. destruct v as [x|]; cbn [input_copy]; [|split; [discriminate|intros (x & [=] & _)]]. destruct x as [p f o]. cbn [i_parent i_ff i_out]. split.
  - intro E. apply ok_inj in E. subst i. exists (mkin p f o). cbn [i_parent i_ff i_out]. split; [reflexivity|]. split; [reflexivity|]. split; [reflexivity|]. split; [|discriminate]. destruct o; [left|right]; auto.
  - intros (x & [= <-] & A & B & D & N0). cbn [i_parent i_ff i_out] in *. destruct i as [p' f' o']. cbn [i_parent i_ff i_out] in *. subst p' f'. destruct D as [->|(-> & ->)]; [destruct o; [reflexivity|congruence]|reflexivity].
Qed.
Lemma output_copy_iff v o : output_copy v = Ok o <-> copied_output v o.
Proof. unfold copied_output. destruct v as [|x|]; cbn [output_copy]; try (split; discriminate). destruct x. cbn. split; [intro E; apply ok_inj in E; now subst|intros [= <-]; reflexivity]. Qed.
Lemma refund_iff v o : TxnBuild.refund_arg v = Ok o <-> refund_given v o.
Proof.
  unfold refund_given. destruct v as [|[|[|x|] [|y l]]|x|]; cbn [TxnBuild.refund_arg]; try (destruct x as [xa xb xc]; cbn [o_value o_cond o_id]);
    (split; [intro E; first [discriminate E|apply ok_inj in E; subst o; auto]|]); destruct o as [[ya yb yc]|]; intros E; intuition (first [discriminate|congruence]).
Qed.

(** ** Assigning and adding *)
Lemma put_iff {A} (old : A) new x : put old new = (x, Ok tt) <-> new = Ok x.
Proof. unfold put. destruct new as [a|e]; (split; [intros [= <-]; reflexivity || (intros [=])|]); [|discriminate]. intro E. apply ok_inj in E. now subst. Qed.
Lemma add_iff {A} (l : list A) new l' : add l new = (l', Ok tt) <-> exists a, new = Ok a /\ one_more l l' a.
Proof. unfold add, one_more. destruct new as [a|e]; [split; [intros [= <-]; eauto|intros (x & E & ->); apply ok_inj in E; now subst]|]. split; [discriminate|intros (x & [=] & _)]. Qed.
Lemma add_all_iff {A B} (f : A -> res B) vs : forall l l', add_all (fun l v => add l (f v)) l vs = (l', Ok tt) <-> exists bs, Forall2 (fun v b => f v = Ok b) vs bs /\ l' = l ++ bs.
Proof.
  induction vs as [|v vs IH]; intros l l'; cbn [add_all].
  - split; [intros [= <-]; exists []; split; [constructor|now rewrite app_nil_r]|]. intros (bs & F & ->). inversion F. now rewrite app_nil_r.
  - unfold add. destruct (f v) as [b|e] eqn:E.
    + rewrite IH. split.
      * intros (bs & F & ->). exists (b :: bs). split; [now constructor|]. now rewrite <- app_assoc.
      * intros (bs & F & ->). inversion F as [|? b' ? bs' X F']. subst. rewrite E in X. apply ok_inj in X. subst b'. exists bs'. split; [exact F'|]. now rewrite <- app_assoc.
    + split; [discriminate|]. intros (bs & F & ->). inversion F as [|? b' ? bs' X F']. congruence.
Qed.
Lemma add_all_most_iff {A B} most (f : A -> res B) vs : forall l l', add_all (fun l v => add_most most l (f v)) l vs = (l', Ok tt) <->
  exists bs, Forall2 (fun v b => f v = Ok b) vs bs /\ l' = l ++ bs /\ (bs = [] \/ (length l <= most -> length l' <= most)%nat).
Proof.
  induction vs as [|v vs IH]; intros l l'; cbn [add_all].
  - split; [intros [= <-]; exists []; split; [constructor|]; split; [now rewrite app_nil_r|auto]|]. intros (bs & F & -> & _). inversion F. now rewrite app_nil_r.
  - unfold add_most at 1. destruct (length l =? most)%nat eqn:L.
    + split; [discriminate|]. intros (bs & F & -> & [->|G]); inversion F as [|? b' ? bs' X F']; subst. rewrite app_length in G. cbn [length] in G. lia.
    + unfold add. destruct (f v) as [b|e] eqn:E.
      * rewrite IH. split.
        -- intros (bs & F & -> & G). exists (b :: bs). split; [now constructor|]. rewrite <- app_assoc. split; [reflexivity|]. right. rewrite !app_length in *. cbn [length] in *. destruct G as [->|G]; cbn [length]; lia.
        -- intros (bs & F & -> & G). inversion F as [|? b' ? bs' X F']. subst. rewrite E in X. apply ok_inj in X. subst b'. exists bs'. split; [exact F'|]. rewrite <- app_assoc. split; [reflexivity|].
           right. destruct G as [[=]|G]. rewrite !app_length in *. cbn [length] in *. lia.
      * split; [discriminate|]. intros (bs & F & -> & _). inversion F as [|? b' ? bs' X F']. congruence.
Qed.
Lemma F2_given {A B} (f : A -> res B) (R : A -> B -> Prop) vs bs : (forall v b, f v = Ok b <-> R v b) -> Forall2 (fun v b => f v = Ok b) vs bs <-> Forall2 R vs bs.
Proof. intro E. split; intro F; induction F; constructor; auto; now apply E. Qed.
Lemma assign_iff {A B} (f : A -> res B) (R : A -> B -> Prop) v l' : (forall v b, f v = Ok b <-> R v b) -> assign (fun l v => add l (f v)) [] v = (l', Ok tt) <-> listed R v l'.
Proof.
  intro E. unfold listed. destruct v as [|vs|]; cbn [assign].
  - split; [intros [= <-]; auto|]. intros [(_ & ->)|(vs & [=] & _)]. reflexivity.
  - rewrite add_all_iff. split; [intros (bs & F & ->); right; exists vs; split; [reflexivity|]; now apply (F2_given f)|]. intros [([=] & _)|(vs' & [= <-] & F)]. exists l'. split; [now apply (F2_given f R)|reflexivity].
  - split; [discriminate|]. intros [([=] & _)|(vs' & [=] & F)].
Qed.
Lemma assign_most_iff {A B} most (f : A -> res B) (R : A -> B -> Prop) start v l' : (forall v b, f v = Ok b <-> R v b) -> assign (fun l v => add_most most l (f v)) start v = (l', Ok tt) <->
  exists l, listed R v l /\ l' = start ++ l /\ (l = [] \/ (length start <= most -> length l' <= most)%nat).
Proof.
  intro E. unfold listed. destruct v as [|vs|]; cbn [assign].
  - split; [intros [= <-]; exists []; split; [auto|]; split; [now rewrite app_nil_r|auto]|]. intros (l & [(_ & ->)|(vs & [=] & _)] & -> & _). now rewrite app_nil_r.
  - rewrite add_all_most_iff. split.
    + intros (bs & F & X & Y). exists bs. split; [right; exists vs; split; [reflexivity|now apply (F2_given f)]|auto].
    + intros (bs & [([=] & _)|(vs' & [= <-] & F)] & X & Y). exists bs. split; [now apply (F2_given f R)|auto].
  - split; [discriminate|]. intros (l & [([=] & _)|(vs' & [=] & F)] & _).
Qed.
Lemma assign_room {A B} most (f : A -> res B) (R : A -> B -> Prop) v l' : (forall v b, f v = Ok b <-> R v b) -> assign (fun l v => add_most most l (f v)) [] v = (l', Ok tt) <-> listed R v l' /\ room most l'.
Proof.
  intro E. rewrite (assign_most_iff most f R [] v l' E). unfold room. cbn [app length]. split.
  - intros (l & L & -> & [->|G]); (split; [exact L|]); cbn [length]; lia.
  - intros (L & G). exists l'. auto.
Qed.
Lemma add_most_iff {A} most (l : list A) new l' : add_most most l new = (l', Ok tt) <-> (exists a, new = Ok a /\ one_more l l' a) /\ length l <> most.
Proof. unfold add_most. destruct (Nat.eqb_spec (length l) most) as [E|E]; [split; [discriminate|intros (_ & X); contradiction]|]. rewrite add_iff. tauto. Qed.
Lemma add_opt_iff l new l' : add_opt l new = (l', Ok tt) <-> exists x i, l = Some x /\ new = Ok i /\ l' = Some (x ++ [i]).
Proof.
  unfold add_opt. destruct new as [i|e]; [|split; [discriminate|intros (x & i & _ & [=] & _)]]. destruct l as [x|]; [|split; [discriminate|intros (y & j & [=] & _)]].
  split; [intros [= <-]; eauto|]. intros (y & j & [= <-] & E & ->). apply ok_inj in E. now subst.
Qed.
Lemma part_iff {A} (f : A -> txn) r t' (P : A -> Prop) : (forall a, r = (a, Ok tt) <-> P a) -> part f r = (t', Ok tt) <-> exists a, P a /\ t' = f a.
Proof.
  intro E. unfold part. destruct r as (a & u). cbn [fst snd]. split.
  - intros [= <- ->]. exists a. split; [now apply E|reflexivity].
  - intros (b & B & ->). apply E in B. injection B as -> ->. reflexivity.
Qed.
Lemma outs_iff v l : listed copied_output (outs_arg v) l <-> outputs_listed v l.
Proof.
  unfold listed, outputs_listed, copied_output. destruct v as [|vs|o|]; cbn [outs_arg].
  - split; [intros [(_ & ->)|(vs & [=] & _)]; auto|]. intros [(_ & ->)|[=]]. auto.
  - split.
    + intros [([=] & _)|(vs' & [= <-] & F)]. right. f_equal. induction F as [|v o vs l E F IH]; [reflexivity|]. cbn [map]. now rewrite E, IH.
    + intros [([=] & _)|[= ->]]. right. eexists. split; [reflexivity|]. induction l; constructor; auto.
  - split; [intros [([=] & _)|(vs & [=] & _)]|]. intros [([=] & _)|[=]].
  - split; [intros [([=] & _)|(vs & [=] & _)]|]. intros [([=] & _)|[=]].
Qed.

(** ** The steps *)
Lemma put_given {A} (old : A) new (R : A -> Prop) x : (forall a, new = Ok a <-> R a) -> put old new = (x, Ok tt) <-> R x.
Proof. intro E. rewrite put_iff. apply E. Qed.
Lemma add_given {A} (l : list A) new (R : A -> Prop) l' : (forall a, new = Ok a <-> R a) -> add l new = (l', Ok tt) <-> exists a, R a /\ one_more l l' a.
Proof. intro E. rewrite add_iff. split; intros (a & X & Y); exists a; (split; [now apply E|exact Y]). Qed.
Lemma add_most_given {A} most (l : list A) new (R : A -> Prop) l' : (forall a, new = Ok a <-> R a) -> add_most most l new = (l', Ok tt) <-> (exists a, R a /\ one_more l l' a) /\ length l <> most.
Proof. intro E. rewrite add_most_iff. split; intros ((a & X & Y) & Z0); (split; [exists a; split; [now apply E|exact Y]|exact Z0]). Qed.
Lemma add_opt_given l new (R : input -> Prop) l' : (forall a, new = Ok a <-> R a) -> add_opt l new = (l', Ok tt) <-> exists x i, l = Some x /\ R i /\ l' = Some (x ++ [i]).
Proof. intro E. rewrite add_opt_iff. split; intros (x & i & X & Y & Z0); exists x, i; (split; [exact X|]; split; [now apply E|exact Z0]). Qed.
Lemma outs_given v l' : assign one_output [] (outs_arg v) = (l', Ok tt) <-> outputs_listed v l'.
Proof. rewrite <- outs_iff. apply (assign_iff output_copy copied_output). exact output_copy_iff. Qed.
Lemma refund_set_given v c i o : (do x <- output_new v c i; Ok (Some x)) = Ok o <-> exists x, output_given v c i x /\ o = Some x.
Proof.
  split; [intro E; apply bind_ok in E as (x & E & X); apply ok_inj in X; exists x; split; [now apply output_iff|auto]|].
  intros (x & E & ->). apply output_iff in E. rewrite E. reflexivity.
Qed.
Lemma reg_fee_iff v : reg_fee_arg v = Ok tt <-> v = CINone \/ amount_given v (10 * 1000000000).
Proof.
  assert (X : forall w, w <> CINone -> (do n <- money_arg w; guard (n =? REG_FEE) ValueError) = Ok tt <-> w = CINone \/ amount_given w (10 * 1000000000)).
  { intros w NW. rewrite <- money_iff. destruct (money_arg w) as [n|e]; cbn [bind]; [|split; [discriminate|intros [C|[=]]; contradiction]].
    destruct (N.eqb_spec n REG_FEE) as [->|NE]; cbn [guard].
    - split; [intros _; right; reflexivity|reflexivity].
    - split; [discriminate|]. intros [C|E]; [contradiction|]. apply ok_inj in E. subst n. exfalso. apply NE. reflexivity. }
  destruct v; cbn [reg_fee_arg]; try (apply X; discriminate). split; auto.
Qed.

Tactic Notation "open_part" uconstr(L) := etransitivity; [eapply part_iff; intro; eapply L|cbv beta].
Ltac no_class I := cbn in I; try contradiction; exfalso; intuition congruence.
Ltac kinds t' := destruct t' as [[]|[]|[]|[]|[]|[]|[]|[]]; try contradiction.
Ltac close_part :=
  let y := fresh "y" in let D := fresh "D" in let I := fresh "I" in
  split; [intros (y & D & ->); right; cbn; cbn in D; intuition (first [assumption|reflexivity|eauto]) |
          intros [(I & _)|D]; [no_class I|];
          match goal with t' : txn |- _ => kinds t' end; cbn in D; decompose [and] D; subst; eexists; split; [|reflexivity]; intuition (first [assumption|eauto])].
Ltac close_missing :=
  let D := fresh "D" in let I := fresh "I" in
  split; [first [discriminate | intros [= <-]; left; split; [cbn; intuition congruence|reflexivity]]
         | intros [(I & ->)|D]; [first [reflexivity | no_class I]|];
           match goal with t' : txn |- _ => kinds t' end; try (cbn in D; decompose [and ex] D; congruence)].
Tactic Notation "by_put" constr(R) := open_part (put_given _ _ _ _ R); close_part.
Tactic Notation "by_add" constr(R) := open_part (add_given _ _ _ _ R); close_part.
Ltac by_inputs := open_part (assign_iff input_copy copied_input _ _ input_copy_iff); close_part.
Ltac by_outputs := open_part outs_given; close_part.
Lemma std_iff H parse s o t' : step_std s o = (t', Ok tt) <-> done H parse (T1 s) o t'.
Proof.
  destruct s as [g ci co bi bo fs d]. unfold step_std. cbv zeta. cbn [s_legacy s_cin s_cout s_bin s_bout s_fees s_data].
  destruct o; try close_missing.
  - by_inputs.
  - by_outputs.
  - by_inputs.
  - open_part (assign_iff output_copy copied_output _ _ output_copy_iff). close_part.
  - by_put (attached_iff v).
  - by_add (input_iff parent f o).
  - by_add (output_iff v c id).
  - by_add (stake_input_iff parent f o).
  - by_add (stake_output_iff v c id).
  - by_add (money_iff v).
Qed.
Lemma mint_iff H parse m o t' : step_mint m o = (t', Ok tt) <-> done H parse (TMint m) o t'.
Proof.
  destruct m as [f n fs d x p]. unfold step_mint. cbv zeta. cbn [m_ff m_new m_fees m_data m_nonce m_parent].
  destruct n as [c|l]; destruct o; try close_missing.
  - by_put (attached_iff v).
  - open_part (put_given _ _ _ _ (condition_iff v)). split.
    + intros (y & D & ->). right. cbn. split; [eauto|auto].
    + intros [(I & _)|D]; [no_class I|]. destruct t' as [[]|[]|[]|[]|[]|[]|[]|[]]; try contradiction. cbn in D. destruct D as ((a & a' & [= <-] & -> & C) & D). decompose [and] D; subst. eauto.
  - by_put (mint_cond_iff v).
  - by_put (mint_ff_iff v).
  - by_add (money_iff v).
  - open_part outs_given. split.
    + intros (y & D & ->). right. cbn. split; [eauto|auto].
    + intros [(I & _)|D]; [no_class I|]. destruct t' as [[]|[]|[]|[]|[]|[]|[]|[]]; try contradiction. cbn in D. destruct D as ((a & a' & [= <-] & -> & C) & D). decompose [and] D; subst. eauto.
  - by_put (attached_iff v).
  - by_put (mint_cond_iff v).
  - by_put (mint_ff_iff v).
  - open_part (add_given _ _ _ _ (output_iff v c id)). split.
    + intros (y & (a & D & E) & ->). right. cbn. split; [exists l, y, a; auto|auto].
    + intros [(I & _)|D]; [no_class I|]. destruct t' as [[]|[]|[]|[]|[]|[]|[]|[]]; try contradiction. cbn in D. destruct D as ((a & a' & b & [= <-] & -> & C & E) & D). decompose [and] D; subst. exists a'. split; [eauto|reflexivity].
  - by_add (money_iff v).
Qed.
Lemma conv_iff H parse c o t' : step_conv c o = (t', Ok tt) <-> done H parse (T208 c) o t'.
Proof.
  destruct c as [a n f ci r]. unfold step_conv. cbv zeta. cbn [c_addr c_value c_fee c_cin c_refund].
  destruct o; try close_missing.
  - by_inputs.
  - by_put (refund_iff v).
  - by_put (eaddr_arg_iff v).
  - by_put (money_iff v).
  - by_put (fee_iff v).
  - by_add (input_iff parent f0 o).
  - by_put (refund_set_given v c id).
Qed.
Lemma gen_iff H parse g o t' : hash_ok H -> step_gen H g o = (t', Ok tt) <-> done H parse (T209 g) o t'.
Proof.
  intro HO. destruct g as [a n f b x]. unfold step_gen. cbv zeta. cbn [g_addr g_value g_fee g_block g_txid].
  destruct o; try close_missing.
  - by_put (fun u => uh_iff H v u HO).
  - by_put (money_iff v).
  - by_put (fee_iff v).
  - by_put (ehash_iff v).
  - by_put (ehash_iff v).
Qed.
Lemma reg_iff H parse g o t' : step_reg g o = (t', Ok tt) <-> done H parse (T210 g) o t'.
Proof.
  destruct g as [k s f ci r]. unfold step_reg. cbv zeta. cbn [r_pk r_sig r_fee r_cin r_refund].
  destruct o; try close_missing.
  - open_part (assign_iff input_copy copied_input _ _ input_copy_iff). split; [intros (y & D & ->); right; cbn; split; [eauto|auto]|].
    intros [(I & _)|D]; [no_class I|]. kinds t'. cbn in D. destruct D as ((l & L & ->) & D). decompose [and] D; subst. eauto.
  - by_put (refund_iff v).
  - by_put (fee_iff v).
  - split.
    + intros [= <- E]. apply reg_fee_iff in E. right. cbn. auto 8.
    + intros [(I & _)|D]; [no_class I|]. destruct t' as [[]|[]|[]|[]|[]|[]|[]|[]]; try contradiction. cbn in D. destruct D as (E & D). apply reg_fee_iff in E. decompose [and] D; subst. now rewrite E.
  - by_put (key_iff v).
  - by_put (signature_iff v).
  - open_part (add_opt_given _ _ _ _ (input_iff parent f0 o)). close_part.
  - by_put (refund_set_given v c id).
Qed.
Tactic Notation "by_room" constr(R) := open_part (assign_room _ _ _ _ _ R); close_part.
Tactic Notation "by_most" constr(R) := open_part (add_most_given _ _ _ _ _ R); close_part.
Lemma bot_iff' H parse b o t' : step_bot parse b o = (t', Ok tt) <-> done H parse (T144 b) o t'.
Proof.
  destruct b as [la ln m f ci r k s]. unfold step_bot. cbv zeta. cbn [b_addrs b_names b_months b_fee b_cin b_refund b_pk b_sig].
  destruct o; try close_missing.
  - by_inputs.
  - by_put (refund_iff v).
  - by_put (fee_iff v).
  - by_put (key_iff v).
  - by_put (signature_iff v).
  - by_room (address_iff parse).
  - by_room name_iff.
  - by_put (months_iff 1 v).
  - by_add (input_iff parent f0 o).
  - by_put (refund_set_given v c id).
  - by_most (address_iff parse v).
  - by_most (name_iff v).
Qed.
Lemma upd_iff' H parse b o t' : step_upd parse b o = (t', Ok tt) <-> done H parse (T145 b) o t'.
Proof.
  destruct b as [i aa ad na nd m f ci r s k]. unfold step_upd. cbv zeta. cbn [u_id u_addr_add u_addr_del u_name_add u_name_del u_months u_fee u_cin u_refund u_sig u_parent].
  destruct o; try close_missing.
  - by_inputs.
  - by_put (refund_iff v).
  - by_put (fee_iff v).
  - by_put (signature_iff v).
  - by_put (months_iff 0 v).
  - by_put (bot_iff v).
  - by_room (address_iff parse).
  - by_room (address_iff parse).
  - by_room name_iff.
  - by_room name_iff.
  - by_put (key_iff v).
  - by_add (input_iff parent f0 o).
  - by_put (refund_set_given v c id).
  - by_most (address_iff parse v).
  - by_most (address_iff parse v).
  - by_most (name_iff v).
  - by_most (name_iff v).
Qed.
Lemma name_iff' H parse b o t' : step_name b o = (t', Ok tt) <-> done H parse (T146 b) o t'.
Proof.
  destruct b as [a b ln f ci r s q k x]. unfold step_name. cbv zeta. cbn [n_sender n_receiver n_names n_fee n_cin n_refund n_ssig n_rsig n_spk n_rpk].
  destruct o; try close_missing.
  - open_part (assign_iff input_copy copied_input _ _ input_copy_iff). split; [intros (y & D & ->); right; cbn; split; [eauto|auto 12]|].
    intros [(I & _)|D]; [no_class I|]. kinds t'. cbn in D. destruct D as ((l & L & ->) & D). decompose [and] D; subst. eauto.
  - by_put (refund_iff v).
  - by_put (fee_iff v).
  - open_part (assign_most_iff _ _ _ _ _ _ name_iff). close_part.
  - by_put (bot_iff v).
  - by_put (bot_iff v).
  - by_put (signature_iff v).
  - by_put (signature_iff v).
  - by_put (key_iff v).
  - by_put (key_iff v).
  - open_part (add_opt_given _ _ _ _ (input_iff parent f0 o)). close_part.
  - by_put (refund_set_given v c id).
  - by_most (name_iff v).
Qed.
Lemma step_iff H parse t o t' : hash_ok H -> step H parse t o = (t', Ok tt) <-> done H parse t o t'.
Proof.
  intro HO. destruct t as [t|t|t|t|t|t|t|t]; cbn [step].
  - apply std_iff.
  - apply mint_iff.
  - apply conv_iff.
  - now apply gen_iff.
  - apply reg_iff.
  - apply bot_iff'.
  - apply upd_iff'.
  - apply name_iff'.
Qed.
