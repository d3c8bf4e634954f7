(** Facts about the JSON form of transactions. *)
From Verif Require Import Base BaseFacts Encoders EncodersFacts Currency CurrencyFacts CurrencyFacts2 Primitive Types Conditions Spec_Types TypesFacts TypesFacts2 ConditionFacts
  Fulfillments Spec_Fulfil FulfilFacts FulfilFacts2 ThreeBotTypes Txn Spec_Txn Spec_ThreeBot ThreeBotFacts ThreeBotFacts2 ThreeBotFacts3 TxnJson Spec_Json.
From Coq Require Import ZifyBool ZifyNat ZifyN.
Ltac Zify.zify_post_hook ::= Z.div_mod_to_equations.

Lemma amt_rt n : print_amount n -> amt_from_json (amt_json n) = Ok n.
Proof.
  intro L. pose (c := Some (mkdec false n (-9)) : currency).
  assert (V : valid c) by (split; cbn; lia).
  assert (U : units c = n) by (unfold units, c; cbn [cvalue]; rewrite scaled9_exact by lia; change (10 ^ Z.to_N (-9 + 9)) with 1; lia).
  destruct (cjson_parse c V) as (s & c' & E & P & V' & U'); [rewrite U; exact L|].
  rewrite (cjson_units _ V), U in E. apply ok_inj in E. subst s.
  unfold amt_from_json, amt_json. rewrite P. cbn [bind]. rewrite (cint_units _ V'). cbn [bind]. rewrite N2Z.id, U', U. reflexivity.
Qed.
Lemma b64_rt b : wf_bytes b -> b64_from_json (b64_json b) = Ok b.
Proof.
  intro W. unfold b64_from_json, b64_json. pose (d := mkbd None (Some (s2b "base64")) b).
  pose proof (bd_json_round_trip d W eq_refl) as X. change (bd_str d) with (b64enc b) in X. cbn [bd_size bd_enc d] in X. rewrite X; [reflexivity | | discriminate]. exact I.
Qed.
Lemma b64_truthy b : jtruthy (b64_json b) = match b with [] => false | _ => true end.
Proof. destruct b as [|x [|y [|z b]]]; reflexivity. Qed.
Lemma arbitrary_get data b : wf_bytes b -> jget_d "arbitrarydata" JNull data = Ok (b64_json b) -> arbitrary_from_json data = Ok b.
Proof.
  intros W E. unfold arbitrary_from_json. rewrite E. cbn [bind]. unfold jor. rewrite b64_truthy. destruct b; [reflexivity | apply b64_rt; exact W].
Qed.
Lemma hash_str_rt h : hash32 h -> hash_from_json (JStr (hash_str h)) = Ok h.
Proof. intro F. rewrite hash_str_full by exact F. apply hash_from_json_hex, F. Qed.
Lemma zeros32_ok : hash32 (zeros 32).
Proof. split; [reflexivity|]. apply Forall_forall. intros x X. apply repeat_spec in X. subst. lia. Qed.
Lemma key_rt p : key_or_none p -> pk_from_json (JStr (pk_str p)) = Ok (read_key p).
Proof.
  intros [K|E].
  - rewrite (pk_round_trip _ K). unfold read_key. destruct (pk_hash p) eqn:E; [destruct K as [L _]; rewrite E in L; discriminate | reflexivity].
  - unfold read_key. rewrite E. rewrite <- (pk_round_trip (mkpk (pk_spec p) (zeros 32)) zeros32_ok). f_equal. f_equal. unfold pk_str. rewrite E. reflexivity.
Qed.
Lemma read_key_id p : key32 p -> read_key p = p.
Proof. intros [L _]. unfold read_key. destruct (pk_hash p); [discriminate | reflexivity]. Qed.
Lemma pair_rt p s l : key_or_none p -> sig_or_empty s -> jpair_from (JObj (jpair (p, s) ++ l)) = Ok (read_key p, s).
Proof.
  intros K S0. unfold jpair_from, jpair. cbn [fst snd app jget]. cbn [jfind String.eqb Ascii.eqb Bool.eqb]. cbn [bind].
  rewrite (key_rt _ K). cbn [bind]. rewrite (sig_json_rt _ S0). reflexivity.
Qed.
Lemma pairs_rt ps : Forall (fun q => key_or_none (fst q) /\ sig_or_empty (snd q)) ps ->
  mapM jpair_from (map (fun p => JObj (jpair p)) ps) = Ok (map (fun q => (read_key (fst q), snd q)) ps).
Proof.
  induction 1 as [|[p s] ps [K S0] F IH]; [reflexivity|]. cbn [map mapM]. rewrite <- (app_nil_r (jpair (p, s))).
  rewrite pair_rt by assumption. cbn [bind]. rewrite IH. reflexivity.
Qed.
Lemma ff_rt f : print_ff f -> ff_from_json (ff_json f) = Ok (read_ff f).
Proof.
  intros S0. unfold ff_from_json, ff_json. cbn [jget_d jfind String.eqb Ascii.eqb Bool.eqb bind].
  destruct f as [p s|p s se|ps]; cbn [print_ff read_ff] in *; cbn [ff_type].
  - change (jeq_int (JNum 1) 1) with true. cbn beta iota. rewrite <- (app_nil_r (jpair (p, odef s))).
    destruct S0 as [K S0]. rewrite pair_rt by auto. reflexivity.
  - change (jeq_int (JNum 2) 1) with false. change (jeq_int (JNum 2) 3) with false. change (jeq_int (JNum 2) 2) with true.
    cbn beta iota. destruct S0 as (K & S0 & SE). destruct se as [x|].
    + rewrite pair_rt by auto. cbn [bind fst snd]. unfold jhas, jpair. cbn [fst snd app].
      cbn [jget jfind String.eqb Ascii.eqb Bool.eqb bind]. cbn [secret_from_json].
      rewrite (secret_new_hex _ (SE x eq_refl)). reflexivity.
    + rewrite <- (app_nil_r (jpair (p, odef s))). rewrite pair_rt by auto. reflexivity.
  - change (jeq_int (JNum 3) 1) with false. change (jeq_int (JNum 3) 3) with true. cbn beta iota.
    cbn [jget jfind String.eqb Ascii.eqb Bool.eqb bind jelems]. rewrite (pairs_rt _ S0). reflexivity.
Qed.
Lemma in_rt o i : print_in i -> in_from_json o (in_json i) = Ok (mkin (i_parent i) (read_ff (i_ff i)) o).
Proof.
  intros [P F]. unfold in_from_json, in_json. cbn [jget jfind String.eqb Ascii.eqb Bool.eqb bind]. rewrite (hash_str_rt _ P). cbn [bind].
  rewrite (ff_rt _ F). reflexivity.
Qed.
Lemma mapM_map {A B C} (f : B -> res C) (g : A -> B) (h : A -> C) l : Forall (fun a => f (g a) = Ok (h a)) l -> mapM f (map g l) = Ok (map h l).
Proof. induction 1 as [|a l E F IH]; [reflexivity|]. cbn [map mapM]. rewrite E. cbn [bind]. rewrite IH. reflexivity. Qed.
Lemma cins_rt l : Forall print_in l -> mapM cin_from_json (map in_json l) = Ok (map read_cin l).
Proof. intro F. apply mapM_map. eapply Forall_impl; [|exact F]. intros i P. apply (in_rt None _ P). Qed.
Lemma bins_rt l : Forall print_in l -> mapM bin_from_json (map in_json l) = Ok (map read_bin l).
Proof. intro F. apply mapM_map. eapply Forall_impl; [|exact F]. intros i P. apply (in_rt _ _ P). Qed.
Lemma amts_rt l : Forall print_amount l -> mapM amt_from_json (map amt_json l) = Ok l.
Proof. intro F. apply mapM_map_id. eapply Forall_impl; [|exact F]. apply amt_rt. Qed.

Section H.
Variables (H : bytes -> bytes) (now : Z).
Hypothesis HH : hash_ok H.
Lemma cout_rt o : print_out o -> exists j, out_json H o = Ok j /\ cout_from_json H now j = Ok (read_out o).
Proof.
  intros [V N0]. destruct (cond_json_round_trip H now _ HH N0) as (j & E & P). unfold out_json. rewrite E. cbn [bind]. eexists. split; [reflexivity|].
  unfold cout_from_json. cbn [jget jfind String.eqb Ascii.eqb Bool.eqb bind]. rewrite (amt_rt _ V). cbn [bind]. rewrite P. reflexivity.
Qed.
Lemma bout_rt o : network_cond (o_cond o) -> exists j, out_json H o = Ok j /\ bout_from_json H now j = Ok (read_out o).
Proof.
  intros N0. destruct (cond_json_round_trip H now _ HH N0) as (j & E & P). unfold out_json. rewrite E. cbn [bind]. eexists. split; [reflexivity|].
  unfold bout_from_json. cbn [jget jfind String.eqb Ascii.eqb Bool.eqb bind]. change (amt_json (o_value o)) with (JStr (bsjson (o_value o))). rewrite bs_round_trip. cbn [bind]. rewrite P. reflexivity.
Qed.
Lemma outs_rt (f : json -> res output) l : Forall (fun o => exists j, out_json H o = Ok j /\ f j = Ok (read_out o)) l ->
  exists js, outs_json H l = Ok (JArr js) /\ mapM f js = Ok (map read_out l).
Proof.
  unfold outs_json. induction 1 as [|o l (j & E & P) F (js & E' & P')]; [exists []; auto|]. cbn [mapM map]. rewrite E. cbn [bind].
  apply bind_ok in E' as (l' & E' & X). apply ok_inj in X. injection X as ->. rewrite E'. cbn [bind]. eexists. split; [reflexivity|]. cbn [mapM]. rewrite P. cbn [bind]. rewrite P'. reflexivity.
Qed.
Lemma couts_rt l : Forall print_out l -> exists js, outs_json H l = Ok (JArr js) /\ mapM (cout_from_json H now) js = Ok (map read_out l).
Proof. intro F. apply outs_rt. eapply Forall_impl; [|exact F]. apply cout_rt. Qed.
Lemma bouts_rt l : Forall (fun o => network_cond (o_cond o)) l -> exists js, outs_json H l = Ok (JArr js) /\ mapM (bout_from_json H now) js = Ok (map read_out l).
Proof. intro F. apply outs_rt. eapply Forall_impl; [|exact F]. intros o. apply bout_rt. Qed.
Lemma refund_rt o : print_refund o -> exists r, refund_json H o = Ok r /\
  match o with None => r = [] | Some x => exists j, r = [("refundcoinoutput"%string, j)] /\ cout_from_json H now j = Ok (read_out x) end.
Proof.
  intro P. destruct o as [x|]; cbn [refund_json]; [|eauto]. destruct (cout_rt x (P _ eq_refl)) as (j & E & Q). rewrite E. cbn [bind]. eauto.
Qed.
End H.

(** ** dictionaries *)
Lemma jfind_app k a b : jfind k (a ++ b) = match jfind k a with Some v => Some v | None => jfind k b end.
Proof. induction a as [|[k' v] a IH]; [reflexivity|]. cbn [app jfind]. destruct (String.eqb k k'); [reflexivity | exact IH]. Qed.
Lemma jfind_none k l : ~ In k (map fst l) -> jfind k l = None.
Proof.
  induction l as [|[k' v] l IH]; [reflexivity|]. cbn [map fst jfind]. intro N. destruct (String.eqb k k') eqn:E; [apply String.eqb_eq in E; subst; exfalso; apply N; left; reflexivity|].
  apply IH. intro I. apply N. right. exact I.
Qed.
Lemma jfind_drop k l : NoDup (map fst l) -> jfind k (drop_empty l) = match jfind k l with Some v => if jtruthy v then Some v else None | None => None end.
Proof.
  induction l as [|[k' v] l IH]; [reflexivity|]. cbn [map fst]. intro N. inversion N as [|? ? N1 N2]; subst. cbn [drop_empty filter snd jfind].
  destruct (String.eqb k k') eqn:E.
  - apply String.eqb_eq in E. subst k'. destruct (jtruthy v); [cbn [jfind]; rewrite String.eqb_refl; reflexivity|].
    fold (drop_empty l). rewrite (IH N2), (jfind_none k l N1). reflexivity.
  - destruct (jtruthy v); [cbn [jfind]; rewrite E|]; apply IH, N2.
Qed.
Lemma jlist_found {A} k (f : json -> res A) l xs : jfind k l = Some (JArr xs) -> jlist k f (JObj l) = mapM f xs.
Proof. intro E. unfold jlist. cbn [jget_d]. rewrite E. cbn [bind]. destruct xs; reflexivity. Qed.
Lemma jlist_absent {A} k (f : json -> res A) l : jfind k l = None -> jlist k f (JObj l) = Ok [].
Proof. intro E. unfold jlist. cbn [jget_d]. rewrite E. reflexivity. Qed.
Lemma jlist_drop {A} k (f : json -> res A) l xs : NoDup (map fst l) -> jfind k l = Some (JArr xs) -> jlist k f (JObj (drop_empty l)) = mapM f xs.
Proof.
  intros N E. unfold jlist. cbn [jget_d]. rewrite (jfind_drop _ _ N), E. destruct xs; reflexivity.
Qed.
Lemma jopt_found {A} k (f : json -> res A) d l v : jfind k l = Some v -> jopt k f d (JObj l) = f v.
Proof. intro E. unfold jopt, jin, jhas. rewrite E. cbn [bind jget]. rewrite E. reflexivity. Qed.
Lemma jopt_absent {A} k (f : json -> res A) d l : jfind k l = None -> jopt k f d (JObj l) = Ok d.
Proof. intro E. unfold jopt, jin, jhas. rewrite E. reflexivity. Qed.
Lemma jint0_found k l z : jfind k l = Some (JNum z) -> jint0 k (JObj l) = Ok z.
Proof. intro E. unfold jint0. cbn [jget_d]. rewrite E. cbn [bind]. unfold jor. cbn [jtruthy]. destruct (z =? 0)%Z eqn:Z0; cbn [negb jint]; [f_equal; lia | reflexivity]. Qed.
Lemma jfind_opt_list k k' xs : jfind k (opt_list k' xs) = if String.eqb k k' then match xs with [] => None | _ => Some (JArr xs) end else None.
Proof. unfold opt_list. destruct xs; cbn [jfind]; destruct (String.eqb k k'); reflexivity. Qed.
Lemma jfind_opt_dict k k' xs : jfind k (opt_dict k' xs) = if String.eqb k k' then match xs with [] => None | _ => Some (JObj xs) end else None.
Proof. unfold opt_dict. destruct xs; cbn [jfind]; destruct (String.eqb k k'); reflexivity. Qed.
Lemma jlist_opt {A} k (f : json -> res A) l xs : jfind k l = match xs with [] => None | x :: y => Some (JArr (x :: y)) end -> jlist k f (JObj l) = mapM f xs.
Proof. intro E. unfold jlist. cbn [jget_d]. rewrite E. destruct xs; reflexivity. Qed.

(** ** names and addresses *)
Lemma names_rt l : Forall accepted_name l -> mapM bn_from_json (map bn_json l) = Ok l.
Proof.
  intro F. apply mapM_map_id. eapply Forall_impl; [|exact F]. intros s (v & E). unfold bn_json, bn_from_json. destruct v as [t|].
  - assert (s = t) by (apply bn_new_iff in E; tauto). subst t. destruct s; [|exact E]. vm_compute in E. discriminate.
  - apply ok_inj in E. subst s. reflexivity.
Qed.
Section IP.
Variables (ip_parse : pystr -> res bytes) (ip_str : bytes -> pystr).
Hypothesis LIB : ip_library ip_parse ip_str.
Lemma addrs_rt l : Forall (accepted_address ip_parse) l -> mapM (na_from_json ip_parse) (map (na_json ip_str) l) = Ok l.
Proof.
  intro F. apply mapM_map_id. eapply Forall_impl; [|exact F]. intros a (v & E). apply (good_text _ _ LIB), (new_good _ _ LIB _ _ E).
Qed.
End IP.
Lemma sig_str_rt s : sig_or_empty s -> sig_from_json (JStr (hex s)) = Ok s.
Proof. exact (sig_json_rt s). Qed.
