(** A transaction that is printed and parsed is [read_back]. *)
From Verif Require Import Base BaseFacts Encoders EncodersFacts Currency CurrencyFacts CurrencyFacts2 Primitive Types Conditions Spec_Types TypesFacts TypesFacts2 ConditionFacts ConditionFacts2
  Fulfillments Spec_Fulfil FulfilFacts FulfilFacts2 ThreeBotTypes Txn Spec_Txn Spec_ThreeBot ThreeBotFacts ThreeBotFacts2 ThreeBotFacts3 TxnJson Spec_Json JsonFacts.
From Coq Require Import ZifyBool ZifyNat ZifyN.
Ltac Zify.zify_post_hook ::= Z.div_mod_to_equations.

Lemma prefixed_rt n b : (0 < n)%nat -> length b = n -> wf_bytes b ->
  prefixed_from_json (fun v => do d <- bd_new v (Some (Z.of_nat n)) (Some (s2b "hexprefix")); Ok (bd_val d)) (prefixed_json b) = Ok b.
Proof.
  intros P L W. pose (d := mkbd (Some (N.of_nat n)) (Some (s2b "hexprefix")) b).
  assert (X : bd_from_json (JStr (bd_str d)) (Some (Z.of_N (N.of_nat n))) (bd_enc d) = Ok d).
  { apply (bd_json_round_trip d W eq_refl); [right; unfold lenN; cbn; lia | intros m E; injection E as <-; lia]. }
  change (bd_str d) with (to_str KHexPrefix b) in X. unfold prefixed_from_json, prefixed_json. unfold bd_from_json in X. rewrite nat_N_Z in X.
  cbn [to_str] in *. change (bd_enc d) with (Some (s2b "hexprefix")) in X. rewrite X. reflexivity.
Qed.
Lemma eaddr_rt b : length b = 20%nat -> wf_bytes b -> eaddr_from_json (prefixed_json b) = Ok b.
Proof. intros. apply (prefixed_rt 20); [lia | assumption | assumption]. Qed.
Lemma ehash_rt b : hash32 b -> ehash_from_json (prefixed_json b) = Ok b.
Proof. intros [L W]. apply (prefixed_rt 32); [lia | assumption | assumption]. Qed.

Lemma eaddr_new_bytes b : length b = 20%nat -> eaddr_new (BVBytes b) = Ok b.
Proof.
  intro L. unfold eaddr_new, bd_new. change (strkind_of (Some (s2b "hexprefix"))) with (@Ok strkind KHexPrefix). cbn [bind]. change (0 <=? 20)%Z with true. cbn [guard bind].
  unfold bd_set. cbn [bd_norm bind bd_size]. assert (B : bd_size_ok (Some (Z.to_N 20)) b = true) by (unfold bd_size_ok, lenN; rewrite L; reflexivity). rewrite B. reflexivity.
Qed.
Ltac keys := cbn [map fst]; repeat (apply NoDup_cons; [cbn; intuition discriminate|]); apply NoDup_nil.
Ltac find := cbn [jfind String.eqb Ascii.eqb Bool.eqb app]; reflexivity.

Section J.
Variables (H : bytes -> bytes) (ip_parse : pystr -> res bytes) (ip_str : bytes -> pystr) (now : Z).
Hypothesis HH : hash_ok H.
Hypothesis LIB : ip_library ip_parse ip_str.

Lemma std_rt t : printable ip_parse (T1 t) -> exists l, data_json H ip_str (T1 t) = Ok (JObj l) /\ rmap T1 (std_from_json H now (JObj l)) = Ok (read_back (T1 t)).
Proof.
  intros (P1 & P2 & P3 & P4 & P5 & P6). destruct (couts_rt H now HH _ P2) as (co & E1 & R1). destruct (bouts_rt H now HH _ P4) as (bo & E2 & R2).
  cbn [data_json]. rewrite E1. cbn [bind]. rewrite E2. cbn [bind]. eexists. split; [reflexivity|].
  match goal with |- context [drop_empty ?l] => set (L := l) end.
  assert (ND : NoDup (map fst L)) by (unfold L; keys).
  unfold std_from_json.
  rewrite (jlist_drop "coininputs" _ L (map in_json (s_cin t)) ND), (cins_rt _ P1) by find. cbn [bind].
  rewrite (jlist_drop "coinoutputs" _ L co ND), R1 by find. cbn [bind].
  rewrite (jlist_drop "blockstakeinputs" _ L (map in_json (s_bin t)) ND), (bins_rt _ P3) by find. cbn [bind].
  rewrite (jlist_drop "blockstakeoutputs" _ L bo ND), R2 by find. cbn [bind].
  rewrite (jlist_drop "minerfees" _ L (map amt_json (s_fees t)) ND), (amts_rt _ P5) by find. cbn [bind].
  assert (A : arbitrary_from_json (JObj (drop_empty L)) = Ok (s_data t)).
  { unfold arbitrary_from_json. cbn [jget_d]. rewrite (jfind_drop _ _ ND). replace (jfind "arbitrarydata" L) with (Some (b64_json (s_data t))) by find.
    rewrite b64_truthy. destruct (s_data t) as [|x d] eqn:E; [reflexivity|]. cbn [bind]. unfold jor. rewrite b64_truthy. apply b64_rt, P6. }
  rewrite A. reflexivity.
Qed.
Lemma mint_ff_ok t : (forall f, m_ff t = Some f -> print_ff f) -> print_ff (match m_ff t with Some f => f | None => FSingle pk_default None end).
Proof. intro P. destruct (m_ff t); [apply P; reflexivity|]. cbn. split; right; reflexivity. Qed.
Lemma mint_rt t : printable ip_parse (TMint t) -> exists l, data_json H ip_str (TMint t) = Ok (JObj l) /\
  match m_new t with MCond _ => rmap TMint (mintdef_from_json H now (JObj l)) | MCoins _ => rmap TMint (mintcoins_from_json H now (JObj l)) end = Ok (read_back (TMint t)).
Proof.
  intros (P1 & P2 & P3 & P4 & P5). apply mint_ff_ok in P2. cbn [data_json read_back]. destruct (m_new t) as [c|os].
  - destruct (cond_json_round_trip H now _ HH P3) as (j & E & R). rewrite E. cbn [bind]. eexists. split; [reflexivity|]. unfold mintdef_from_json.
    rewrite (jlist_found "minerfees" _ _ (map amt_json (m_fees t))) by find. rewrite (arbitrary_get _ _ P5) by find.
    cbn [jget_d jfind String.eqb Ascii.eqb Bool.eqb bind]. rewrite (b64_rt _ P1). cbn [bind]. rewrite R. cbn [bind]. rewrite (ff_rt _ P2). cbn [bind]. rewrite (amts_rt _ P4). reflexivity.
  - destruct (couts_rt H now HH _ P3) as (co & E1 & R1). rewrite E1. cbn [bind]. eexists. split; [reflexivity|]. unfold mintcoins_from_json.
    rewrite (jlist_found "minerfees" _ _ (map amt_json (m_fees t))) by find. rewrite (jlist_found "coinoutputs" _ _ co) by find. rewrite (arbitrary_get _ _ P5) by find.
    cbn [jget_d jfind String.eqb Ascii.eqb Bool.eqb bind]. rewrite (b64_rt _ P1). cbn [bind]. rewrite (ff_rt _ P2). cbn [bind]. rewrite R1. cbn [bind]. rewrite (amts_rt _ P4). reflexivity.
Qed.

(** the refund of the one-output versions *)
Lemma refund_get L o r : print_refund o -> refund_json H o = Ok r -> jfind "refundcoinoutput" L = None ->
  jopt "refundcoinoutput" (jsome (cout_from_json H now)) None (JObj (L ++ r)) = Ok (option_map read_out o).
Proof.
  intros P E N0. destruct (refund_rt H now HH o P) as (r' & E' & R). rewrite E in E'. apply ok_inj in E'. subst r'. destruct o as [x|].
  - destruct R as (j & -> & R). rewrite (jopt_found _ _ _ _ j).
    + unfold jsome. rewrite R. reflexivity.
    + rewrite jfind_app, N0. reflexivity.
  - subst r. rewrite app_nil_r. apply jopt_absent, N0.
Qed.
Lemma find_before k L o r : refund_json H o = Ok r -> String.eqb k "refundcoinoutput" = false -> jfind k (L ++ r) = jfind k L.
Proof.
  intros E K. rewrite jfind_app. destruct (jfind k L); [reflexivity|]. destruct o as [x|]; cbn [refund_json] in E.
  - apply bind_ok in E as (j & _ & E). apply ok_inj in E. subst r. cbn [jfind]. rewrite K. reflexivity.
  - apply ok_inj in E. subst r. reflexivity.
Qed.
Lemma fee_get l f : print_amount (fee f) -> jfind "txfee" l = Some (amt_json (fee f)) -> jopt "txfee" (jsome amt_from_json) None (JObj l) = Ok (read_fee f).
Proof. intros P E. rewrite (jopt_found _ _ _ _ _ E). unfold jsome. rewrite (amt_rt _ P). reflexivity. Qed.

Ltac before E := rewrite (find_before _ _ _ _ E) by reflexivity.

Lemma conv_rt t : printable ip_parse (T208 t) -> exists l, data_json H ip_str (T208 t) = Ok (JObj l) /\ rmap T208 (conv_from_json H now (JObj l)) = Ok (read_back (T208 t)).
Proof.
  intros ([P0 P1] & P2 & P3 & P4 & P5). destruct (refund_rt H now HH _ P5) as (r & E & _). cbn [data_json]. rewrite E. cbn [bind]. eexists. split; [reflexivity|].
  unfold conv_from_json.
  erewrite (jopt_found "address") by (before E; find). rewrite (eaddr_rt _ P0 P1). cbn [bind].
  erewrite (jopt_found "value") by (before E; find). rewrite (amt_rt _ P2). cbn [bind].
  rewrite (fee_get _ _ P3) by (before E; find). cbn [bind].
  erewrite (jlist_found "coininputs") by (before E; find). rewrite (cins_rt _ P4). cbn [bind].
  rewrite (refund_get _ _ _ P5 E) by find. reflexivity.
Qed.
Lemma gen_rt t : printable ip_parse (T209 t) -> exists l, data_json H ip_str (T209 t) = Ok (JObj l) /\ rmap T209 (gen_from_json H (JObj l)) = Ok (read_back (T209 t)).
Proof.
  intros (P1 & P2 & P3 & P4 & P5). destruct (address_json H _ HH P1) as (s & E & R). cbn [data_json]. rewrite E. cbn [bind]. eexists. split; [reflexivity|].
  unfold gen_from_json.
  erewrite (jopt_found "address") by find. rewrite R. cbn [bind].
  erewrite (jopt_found "value") by find. rewrite (amt_rt _ P2). cbn [bind].
  rewrite (fee_get _ _ P3) by find. cbn [bind].
  erewrite (jopt_found "blockid") by find. rewrite (ehash_rt _ P4). cbn [bind].
  erewrite (jopt_found "txid") by find. rewrite (ehash_rt _ P5). reflexivity.
Qed.
Lemma sig_match (s : bsig) : match s with Some (_, x) => x | None => [] end = sig_bytes s.
Proof. destruct s as [[a b]|]; reflexivity. Qed.
Lemma key_addresses p : key32 p -> exists u e a, pk_unlockhash H p = Ok u /\ eaddr_from_uh H u = Ok e /\ uh_str H u = Ok a.
Proof.
  intro K. destruct (pk_address_total H p (or_intror (proj1 K))) as (u & E). destruct (pk_address_fun H p u E) as (T & d & _ & Hd).
  assert (Hu : hash32 (uh_hash u)) by (rewrite Hd; apply HH).
  assert (A : address u) by (split; [right; left; exact T|]; split; [exact Hu | intro X; rewrite T in X; discriminate]).
  destruct (address_json H u HH A) as (s & S0 & _).
  assert (EA : exists e, eaddr_from_uh H u = Ok e).
  { unfold eaddr_from_uh, uh_sia. rewrite T. change (sia_byte 1) with (@Ok bytes [1]). cbn [rapp bind app]. eexists. apply eaddr_new_bytes. rewrite skipn_length, (proj1 (HH _)). reflexivity. }
  destruct EA as (e & EA). eauto 10.
Qed.
Lemma reg_rt t : printable ip_parse (T210 t) -> exists l, data_json H ip_str (T210 t) = Ok (JObj l) /\ rmap T210 (reg_from_json H now (JObj l)) = Ok (read_back (T210 t)).
Proof.
  intros (P1 & P2 & P3 & P4 & P5 & P6). destruct (refund_rt H now HH _ P6) as (r & E & _). destruct (key_addresses _ P1) as (u & e & a & U1 & U2 & U3).
  cbn [data_json]. rewrite U1. cbn [bind]. rewrite U2. cbn [bind]. rewrite U3. cbn [bind].
  cbn [read_back]. destruct (r_cin t) as [ci|]; [|congruence]. cbn [got bind olist] in *. rewrite E. cbn [bind]. eexists. split; [reflexivity|].
  unfold reg_from_json. rewrite sig_match.
  erewrite (jopt_found "pubkey") by (before E; find). unfold jsome at 1. rewrite (pk_round_trip _ P1). cbn [bind].
  erewrite (jopt_found "signature") by (before E; find). unfold jsome at 1, slice_sig at 1. rewrite (sig_str_rt _ P2). cbn [bind].
  erewrite (jopt_found "regfee") by (before E; find). rewrite amt_rt by (unfold print_amount, REG_FEE; lia). cbn [bind]. change (guard (REG_FEE =? REG_FEE) ValueError) with (Ok tt). cbn [bind].
  rewrite (fee_get _ _ P3) by (before E; find). cbn [bind].
  erewrite (jlist_found "coininputs") by (before E; find). rewrite (cins_rt _ P5). cbn [bind].
  rewrite (refund_get _ _ _ P6 E) by find. reflexivity.
Qed.
Lemma sig_or_none_found l s : sig_or_empty s -> jfind "signature" l = Some (JStr (hex s)) -> sig_or_none (JObj l) = Ok (Some (false, s)).
Proof.
  intros P E. unfold sig_or_none. cbn [jget_d]. rewrite E. cbn [bind]. unfold jor. cbn [jtruthy]. destruct (hex s) as [|c x] eqn:X.
  - destruct s; [reflexivity | discriminate].
  - rewrite <- X. unfold jsome, slice_sig. rewrite (sig_str_rt _ P). reflexivity.
Qed.
Lemma name_rt t : printable ip_parse (T146 t) -> exists l, data_json H ip_str (T146 t) = Ok (JObj l) /\ rmap T146 (name_from_json H now (JObj l)) = Ok (read_back (T146 t)).
Proof.
  intros (P1 & P2 & P3 & P4 & P5 & P6 & P7). destruct (refund_rt H now HH _ P5) as (r & E & _).
  cbn [data_json read_back]. destruct (n_cin t) as [ci|]; [|congruence]. cbn [got bind olist] in *. rewrite E. cbn [bind]. eexists. split; [reflexivity|].
  unfold name_from_json. rewrite !sig_match.
  erewrite (jopt_found "sender") by (before E; find). unfold party_from_json at 1. rewrite (jint0_found _ _ (n_sender t)) by find. cbn [bind].
  rewrite (sig_or_none_found _ _ P6) by find. cbn [bind].
  erewrite (jopt_found "receiver") by (before E; find). unfold party_from_json at 1. rewrite (jint0_found _ _ (n_receiver t)) by find. cbn [bind].
  rewrite (sig_or_none_found _ _ P7) by find. cbn [bind].
  erewrite (jlist_found "names") by (before E; find). rewrite (names_rt _ P1). cbn [bind].
  rewrite (fee_get _ _ P2) by (before E; find). cbn [bind].
  erewrite (jlist_found "coininputs") by (before E; find). rewrite (cins_rt _ P4). cbn [bind].
  rewrite (refund_get _ _ _ P5 E) by find. reflexivity.
Qed.
(** entries that are present only if a list is not empty *)
Ltac optl := rewrite !jfind_app; cbn [jfind String.eqb Ascii.eqb Bool.eqb]; rewrite ?jfind_opt_list, ?jfind_opt_dict; cbn [String.eqb Ascii.eqb Bool.eqb];
  repeat match goal with |- context [match ?x with [] => None | _ :: _ => _ end] => destruct x end; reflexivity.
Lemma map_nil_opt {A} (g : A -> json) l : match map g l with [] => None | _ => Some (JArr (map g l)) end = match map g l with [] => None | x :: y => Some (JArr (x :: y)) end.
Proof. destruct (map g l); reflexivity. Qed.
Lemma bot_rt t : printable ip_parse (T144 t) -> exists l, data_json H ip_str (T144 t) = Ok (JObj l) /\ rmap T144 (bot_from_json H ip_parse now (JObj l)) = Ok (read_back (T144 t)).
Proof.
  intros (P1 & P2 & P3 & P4 & P5 & P6 & (fl & s & P7 & P8)). destruct (refund_rt H now HH _ P5) as (r & E & _).
  cbn [data_json read_back]. destruct (b_pk t) as [p|]; [|exfalso; destruct P6 as [L _]; discriminate]. cbn [opk] in P6. rewrite P7. cbn [bind sig_bytes]. rewrite E. cbn [bind]. eexists. split; [reflexivity|].
  match goal with |- context [JObj (?a ++ ?b ++ ?c ++ r)] => rewrite (app_assoc b c r), (app_assoc a (b ++ c) r); set (L := a ++ b ++ c) end.
  assert (Fa : jfind "addresses" L = match map (na_json ip_str) (b_addrs t) with [] => None | x :: y => Some (JArr (x :: y)) end) by (unfold L; optl).
  assert (Fn : jfind "names" L = match map bn_json (b_names t) with [] => None | x :: y => Some (JArr (x :: y)) end) by (unfold L; optl).
  assert (Fr : jfind "refundcoinoutput" L = None) by (unfold L; optl).
  unfold bot_from_json.
  rewrite (jlist_opt "addresses" _ _ (map (na_json ip_str) (b_addrs t))) by (before E; exact Fa). rewrite (addrs_rt _ _ LIB _ P1). cbn [bind].
  rewrite (jlist_opt "names" _ _ (map bn_json (b_names t))) by (before E; exact Fn). rewrite (names_rt _ P2). cbn [bind].
  rewrite (jint0_found _ _ (b_months t)) by (before E; reflexivity). cbn [bind].
  rewrite (fee_get _ _ P3) by (before E; reflexivity). cbn [bind].
  erewrite (jlist_found "coininputs") by (before E; reflexivity). rewrite (cins_rt _ P4). cbn [bind].
  rewrite (refund_get _ _ _ P5 E Fr). cbn [bind].
  erewrite (jopt_found "identification") by (before E; reflexivity). unfold ident_from_json. cbn [jget jfind String.eqb Ascii.eqb Bool.eqb bind].
  rewrite (pk_round_trip _ P6). cbn [bind]. rewrite (sig_str_rt _ P8). reflexivity.
Qed.
Lemma dict_get l k xs : jfind k l = match xs with [] => None | x :: y => Some (JObj (x :: y)) end -> (do x <- jget_d k (JObj []) (JObj l); Ok (jor x (JObj []))) = Ok (JObj xs).
Proof. intro E. cbn [jget_d]. rewrite E. destruct xs; reflexivity. Qed.
Lemma upd_rt t : printable ip_parse (T145 t) -> exists l, data_json H ip_str (T145 t) = Ok (JObj l) /\ rmap T145 (upd_from_json H ip_parse now (JObj l)) = Ok (read_back (T145 t)).
Proof.
  intros (P1 & P2 & P3 & P4 & P5 & P6 & P7 & P8). destruct (refund_rt H now HH _ P7) as (r & E & _).
  cbn [data_json read_back]. rewrite sig_match, E. cbn [bind]. eexists. split; [reflexivity|].
  set (DA := opt_list "add" (map (na_json ip_str) (u_addr_add t)) ++ opt_list "remove" (map (na_json ip_str) (u_addr_del t))).
  set (DN := opt_list "add" (map bn_json (u_name_add t)) ++ opt_list "remove" (map bn_json (u_name_del t))).
  match goal with |- context [JObj (?a ++ ?b ++ ?c ++ r)] => rewrite (app_assoc b c r), (app_assoc a (b ++ c) r); set (L := a ++ b ++ c) end.
  assert (Fa : jfind "addresses" L = match DA with [] => None | x :: y => Some (JObj (x :: y)) end) by (unfold L; clearbody DA DN; optl).
  assert (Fn : jfind "names" L = match DN with [] => None | x :: y => Some (JObj (x :: y)) end) by (unfold L; clearbody DA DN; optl).
  assert (Fr : jfind "refundcoinoutput" L = None) by (unfold L; clearbody DA DN; optl).
  unfold upd_from_json.
  rewrite (jint0_found _ _ (u_id t)) by (before E; reflexivity). cbn [bind].
  rewrite (dict_get _ "addresses" DA) by (before E; exact Fa). cbn [bind].
  rewrite (jlist_opt "add" _ DA (map (na_json ip_str) (u_addr_add t))) by (unfold DA; optl). rewrite (addrs_rt _ _ LIB _ P1). cbn [bind].
  rewrite (jlist_opt "remove" _ DA (map (na_json ip_str) (u_addr_del t))) by (unfold DA; optl). rewrite (addrs_rt _ _ LIB _ P2). cbn [bind].
  rewrite (dict_get _ "names" DN) by (before E; exact Fn). cbn [bind].
  rewrite (jlist_opt "add" _ DN (map bn_json (u_name_add t))) by (unfold DN; optl). rewrite (names_rt _ P3). cbn [bind].
  rewrite (jlist_opt "remove" _ DN (map bn_json (u_name_del t))) by (unfold DN; optl). rewrite (names_rt _ P4). cbn [bind].
  rewrite (jint0_found _ _ (u_months t)) by (before E; reflexivity). cbn [bind].
  rewrite (fee_get _ _ P5) by (before E; reflexivity). cbn [bind].
  erewrite (jlist_found "coininputs") by (before E; reflexivity). rewrite (cins_rt _ P6). cbn [bind].
  rewrite (refund_get _ _ _ P7 E Fr). cbn [bind].
  rewrite (sig_or_none_found _ _ P8) by (before E; reflexivity). reflexivity.
Qed.

Lemma json_is_dict t l : data_json H ip_str t = Ok (JObj l) -> l <> [] \/ exists s, t = T1 s.
Proof.
  intro E. destruct t as [s|m|c|g|r|b|u|n]; [right; eauto | ..]; left; intro X; subst l; cbn [data_json] in E;
    repeat match type of E with bind _ _ = _ => apply bind_ok in E as (? & _ & E) end; apply ok_inj in E; try discriminate; injection E as E; discriminate.
Qed.
Theorem read_back_ok t : printable ip_parse t -> exists j, txn_json H ip_str t = Ok j /\ txn_from_json H ip_parse now j = Ok (read_back t).
Proof.
  intro P. unfold txn_json.
  assert (A : exists l, data_json H ip_str t = Ok (JObj l) /\ txn_of_version H ip_parse now (version t) (JObj l) = Some (Ok (read_back t))).
  { destruct t as [s|m|c|g|r|b|u|n].
    - destruct (std_rt s P) as (l & E & R). exists l. split; [exact E|]. unfold txn_of_version. cbn [version]. change (1 =? 1)%Z with true. cbn iota. rewrite R. reflexivity.
    - destruct (mint_rt m P) as (l & E & R). exists l. split; [exact E|]. cbn [version]. destruct (m_new m).
      + rewrite <- R. reflexivity.
      + rewrite <- R. reflexivity.
    - destruct (conv_rt c P) as (l & E & R). exists l. split; [exact E|]. rewrite <- R. reflexivity.
    - destruct (gen_rt g P) as (l & E & R). exists l. split; [exact E|]. rewrite <- R. reflexivity.
    - destruct (reg_rt r P) as (l & E & R). exists l. split; [exact E|]. rewrite <- R. reflexivity.
    - destruct (bot_rt b P) as (l & E & R). exists l. split; [exact E|]. rewrite <- R. reflexivity.
    - destruct (upd_rt u P) as (l & E & R). exists l. split; [exact E|]. rewrite <- R. reflexivity.
    - destruct (name_rt n P) as (l & E & R). exists l. split; [exact E|]. rewrite <- R. reflexivity. }
  destruct A as (l & E & R). rewrite E. cbn [bind]. eexists. split; [reflexivity|]. unfold txn_from_json.
  cbn [jget_d jfind String.eqb Ascii.eqb Bool.eqb bind version_of].
  assert (V : (version t =? 0)%Z = false) by (destruct t as [s|m| | | | | |]; cbn [version]; try reflexivity; destruct (m_new m); reflexivity).
  rewrite V. destruct (jtruthy (JObj l)) eqn:T.
  - cbn [jfind String.eqb Ascii.eqb Bool.eqb bind]. rewrite R. reflexivity.
  - destruct l; [|discriminate]. cbn [jfind bind]. rewrite R. reflexivity.
Qed.
End J.
