(** Theorems about requests over HTTP (C97). *)
From Coq Require Import Permutation.
From Verif Require Import Base BaseFacts Encoders Currency Primitive Types Conditions Fulfillments ThreeBotTypes Txn TxnJson Wallet Explorer Lookups WalletLoad Http
  Spec_Types Spec_Explorer Spec_Lookup Spec_Http TypesFacts ExplorerFacts ExplorerFacts3 LookupFacts HttpFacts WalletFacts2 Prop_Explorer Prop_Lookup.
From Verif Require Network.
From Coq Require Import ZifyBool ZifyNat ZifyN.
Ltac Zify.zify_post_hook ::= Z.div_mod_to_equations.

(** *** Whatever the order of the explorers, they are asked one after the other, each at most once, for the endpoint at their address, by a GET as documented, going on past those
    only which do not answer; and the result is what the last one asked says. *)
Theorem C97_get : forall requery web addrs e order, Forall explorer_address addrs -> plain e -> shuffled addrs order ->
  let x := web_get requery web (map Some addrs) e order in
  search get_says (fun i => web (asked (nth i addrs []) e)) order (fst x) (snd x) /\ NoDup (fst x).
Proof.
  intros requery web addrs e order A P S. cbv zeta. rewrite (web_get_asked requery web addrs e order A P S). destruct (shuffled_bound addrs order S) as (B & N). unfold explorer_get.
  assert (Tx : texts (map Some addrs)) by (apply Forall_forall; intros x I; apply in_map_iff in I as (y & <- & _); discriminate).
  assert (B' : Forall (fun i => (i < length (map Some addrs))%nat) order) by (rewrite map_length; exact B).
  pose proof (try_search get_step get_says get_step_none get_step_some (map Some addrs) (fun i => web (asked (nth i addrs []) e)) order Tx B') as Q. split; [exact Q|].
  destruct Q as [(-> & _)|(b & i & r & -> & -> & _)]; [exact N|].
  change (b ++ i :: r) with (b ++ [i] ++ r) in N. rewrite app_assoc in N. apply NoDup_app_iff in N. tauto.
Qed.
Print Assumptions C97_get.
(** The same for what is posted, with the JSON as data. *)
Theorem C97_post : forall requery web dumps addrs e d b order, Forall explorer_address addrs -> plain e -> shuffled addrs order -> post_data dumps d = Ok b -> b <> [] ->
  let x := web_post requery web dumps (map Some addrs) e d order in
  search post_says (fun i => web (posted (nth i addrs []) e b)) order (fst x) (snd x) /\ NoDup (fst x).
Proof.
  intros requery web dumps addrs e d b order A P S D NE. cbv zeta. rewrite (web_post_asked requery web dumps addrs e d b order A P S D NE). destruct (shuffled_bound addrs order S) as (B & N). unfold explorer_post. rewrite D. cbn [bind].
  assert (Tx : texts (map Some addrs)) by (apply Forall_forall; intros x I; apply in_map_iff in I as (y & <- & _); discriminate).
  assert (B' : Forall (fun i => (i < length (map Some addrs))%nat) order) by (rewrite map_length; exact B).
  pose proof (try_search post_step post_says post_step_none post_step_some (map Some addrs) (fun i => web (posted (nth i addrs []) e b)) order Tx B') as Q. split; [exact Q|].
  destruct Q as [(-> & _)|(c & i & r & -> & -> & _)]; [exact N|].
  change (c ++ i :: r) with (c ++ [i] ++ r) in N. rewrite app_assoc in N. apply NoDup_app_iff in N. tauto.
Qed.
Print Assumptions C97_post.

(** *** Submitting a transaction: the data are posted, as they are, to the transaction pool of one explorer after the other; the result is the id which the one that took them tells. *)
Theorem C97_put : forall requery web dumps loads addrs d b order, Forall explorer_address addrs -> shuffled addrs order -> post_data dumps d = Ok b -> b <> [] ->
  let x := web_put requery web dumps loads (map Some addrs) d order in
  exists answer, search post_says (fun i => web (posted (nth i addrs []) (s2b "/transactionpool/transactions") b)) order (fst x) answer /\ NoDup (fst x) /\
    (forall e, answer = Err e -> snd x = Err e) /\
    (forall line resp h, answer = Ok line -> loads line = Ok resp -> hash32 h -> field "transactionid" resp (JStr (hash_str h)) -> snd x = Ok (hash_str h)) /\
    (forall line resp, answer = Ok line -> loads line = Ok resp -> absent "transactionid" resp -> snd x = Err ExplorerInvalidResponse).
Proof.
  intros requery web dumps loads addrs d b order A S D NE. cbv zeta.
  assert (P : plain (s2b "/transactionpool/transactions")) by (exists (s2b "transactionpool/transactions"); split; [reflexivity|]; apply Forall_forall; intros c I; vm_compute in I; unfold path_char; intuition lia).
  pose proof (C97_post requery web dumps addrs _ d b order A P S D NE) as Q. cbv zeta in Q. unfold web_put.
  destruct (web_post requery web dumps (map Some addrs) (s2b "/transactionpool/transactions") d order) as (l & r). cbn [fst snd] in Q |- *. destruct Q as (Q & N). exists r. split; [exact Q|]. split; [exact N|]. split; [|split].
  - intros e ->. reflexivity.
  - intros line resp h -> L K F. cbn [bind]. rewrite L. cbn [bind]. exact (C70_put resp h K F).
  - intros line resp -> L F. cbn [bind]. rewrite L. cbn [bind]. unfold transaction_put. exact (key_error_absent _ _ _ F).
Qed.
Print Assumptions C97_put.
(** The data a caller makes by hand are posted; a Transaction object is not: its JSON is no data (C29). *)
Theorem C97_put_object_refuted : forall H ip_str requery web dumps loads addrs order t j, Forall explorer_address addrs -> addrs <> [] -> shuffled addrs order -> txn_json H ip_str t = Ok j ->
  web_put requery web dumps loads (map Some addrs) (PDict j) order = ([], Err TypeError).
Proof.
  intros H is_ requery web dumps loads addrs order t j A NE S E. unfold web_put.
  assert (Tx : texts (map Some addrs)) by (apply Forall_forall; intros x I; apply in_map_iff in I as (y & <- & _); discriminate).
  assert (S' : shuffled (map Some addrs) order) by (unfold shuffled in *; rewrite map_length; exact S).
  assert (NE' : map Some addrs <> []) by (destruct addrs; [contradiction|discriminate]).
  unfold web_post. rewrite (C29_never_posted H is_ dumps _ _ order t j Tx S' NE' E). reflexivity.
Qed.
Print Assumptions C97_put_object_refuted.

(** *** The lookups of a client: two networks which tell the same at plain endpoints are the same to it *)
Section Same.
Variables (H : bytes -> bytes) (ip_parse : pystr -> res bytes) (now : Z) (f g : pystr -> res json).
Hypothesis HH : hash_ok H.
Hypothesis FG : forall e, plain e -> f e = g e.
Lemma same_id v : (forall h, hash_new v = Ok h -> wf_bytes h) -> forall id, normalize v = Ok id -> f (hashes id) = g (hashes id).
Proof. intros W id E. unfold normalize in E. apply bind_ok in E as (h & Eh & E). apply ok_inj in E. subst id. apply FG, plain_hashes, hash_path, W, Eh. Qed.
Lemma bind_same {A B} (r : res A) (k k' : A -> res B) : (forall a, r = Ok a -> k a = k' a) -> bind r k = bind r k'.
Proof. destruct r; [intro E; exact (E _ eq_refl)|reflexivity]. Qed.
Lemma same_block v : (match v with ByHeight _ => True | ById v => forall h, hash_new v = Ok h -> wf_bytes h end) -> block_get H ip_parse now f v = block_get H ip_parse now g v.
Proof.
  intro W. unfold block_get. f_equal. destruct v as [z|v].
  - rewrite (FG (s2b "/explorer/blocks/" ++ z_str z)); [reflexivity|]. eapply plain_lit; [reflexivity|reflexivity|reflexivity|apply z_path].
  - apply bind_same. intros id E. rewrite (same_id v W id E). reflexivity.
Qed.
Lemma same_info : blockchain_info_get H ip_parse now f = blockchain_info_get H ip_parse now g.
Proof.
  unfold blockchain_info_get. rewrite (FG (s2b "/explorer")); [|exists (s2b "explorer"); split; [reflexivity|]; apply Forall_forall; intros c I; vm_compute in I; unfold path_char; intuition lia].
  apply bind_same. intros resp _. apply bind_same. intros id E. apply same_block. intros h Eh. apply bind_ok in E as (x & _ & E). apply hash_from_json_sound in E as [->|(_ & W)].
  - apply hash_new_ok in Eh as (Eh & _). cbn in Eh. apply ok_inj in Eh. subst h. constructor.
  - apply hash_new_ok in Eh as (Eh & _). cbn in Eh. apply ok_inj in Eh. subst h. exact W.
Qed.
Lemma same_transaction v : (forall h, hash_new v = Ok h -> wf_bytes h) -> client_transaction_get H ip_parse now f v = client_transaction_get H ip_parse now g v.
Proof. intro W. unfold client_transaction_get. apply bind_same. intros id E. rewrite (same_id v W id E). reflexivity. Qed.
Lemma same_output k v : (forall h, hash_new v = Ok h -> wf_bytes h) -> client_output_get H ip_parse now f k v = client_output_get H ip_parse now g k v.
Proof. intro W. unfold client_output_get. apply bind_same. intros id E. rewrite (same_id v W id E). reflexivity. Qed.
Lemma same_mint h : mint_condition_get H now f h = mint_condition_get H now g h.
Proof.
  unfold mint_condition_get. apply bind_same. intros e E. rewrite FG; [reflexivity|]. apply mint_endpoint_ok in E. destruct E as [|z|s z Z].
  - exists (s2b "explorer/mintcondition"). split; [reflexivity|]. apply Forall_forall; intros c I; vm_compute in I; unfold path_char; intuition lia.
  - eapply plain_lit; [reflexivity|reflexivity|reflexivity|apply z_path].
  - eapply plain_lit; [reflexivity|reflexivity|reflexivity|apply z_path].
Qed.
Lemma same_record b : tidy_bot b -> record_get ip_parse f b = record_get ip_parse g b.
Proof.
  intro Ti. unfold record_get. apply bind_same. intros e E. rewrite (FG e); [reflexivity|]. apply bot_endpoint_ok in E. destruct E as [z|b'|s|p|s M|s K]; cbn [tidy_bot] in Ti;
    (eapply plain_lit; [reflexivity|reflexivity|reflexivity|]); try exact Ti; [apply z_path| |exact (pk_path p Ti)].
  destruct b'; apply Forall_forall; intros c I; vm_compute in I; unfold path_char; intuition lia.
Qed.
Lemma same_erc20 r : (forall u, r = UHash u -> wf_bytes (uh_hash u)) -> erc20_address_get H f r = erc20_address_get H g r.
Proof.
  intro W. unfold erc20_address_get. apply bind_same. intros u E. apply bind_same. intros _ _. apply bind_same. intros s Es. rewrite (FG (hashes s)); [reflexivity|]. apply plain_hashes. refine (uh_path H u s HH _ Es).
  destruct r as [t|v|]; [exact (parsed_wf H _ _ E)|apply ok_inj in E; subst u; exact (W v eq_refl)|discriminate].
Qed.
End Same.
Theorem C97_lookups : forall H ip_parse now requery web loads addrs order truth, hash_ok H ->
  Forall explorer_address addrs -> (forall e, shuffled addrs (order e)) -> (forall e, plain e -> truthful web loads addrs e (truth e)) ->
  let told := web_json requery web loads (map Some addrs) order in
  (forall v, (forall h, hash_new v = Ok h -> wf_bytes h) ->
     client_transaction_get H ip_parse now told v = client_transaction_get H ip_parse now truth v /\
     (forall k, client_output_get H ip_parse now told k v = client_output_get H ip_parse now truth k v) /\
     block_get H ip_parse now told (ById v) = block_get H ip_parse now truth (ById v)) /\
  (forall h, block_get H ip_parse now told (ByHeight h) = block_get H ip_parse now truth (ByHeight h)) /\
  blockchain_info_get H ip_parse now told = blockchain_info_get H ip_parse now truth /\
  (forall h, mint_condition_get H now told h = mint_condition_get H now truth h) /\
  (forall b, tidy_bot b -> record_get ip_parse told b = record_get ip_parse truth b) /\
  (forall r, (forall u, r = UHash u -> wf_bytes (uh_hash u)) -> erc20_address_get H told r = erc20_address_get H truth r).
Proof.
  intros H ip now requery web loads addrs order truth HH A S T. cbv zeta.
  assert (FG : forall e, plain e -> web_json requery web loads (map Some addrs) order e = truth e) by (intros e P; exact (web_truth requery web loads addrs e order (truth e) A P (S e) (T e P))).
  split; [|split; [|split; [|split; [|split]]]].
  - intros v W. split; [exact (same_transaction H ip now _ _ FG v W)|]. split; [intro k; exact (same_output H ip now _ _ FG k v W)|exact (same_block H ip now _ _ FG (ById v) W)].
  - intro h. exact (same_block H ip now _ _ FG (ByHeight h) I).
  - exact (same_info H ip now _ _ FG).
  - intro h. exact (same_mint H now _ _ FG h).
  - intros b Ti. exact (same_record ip _ _ FG b Ti).
  - intros r W. exact (same_erc20 H _ _ HH FG r W).
Qed.
Print Assumptions C97_lookups.

(** *** A wallet's balance and its transactions: every request of the call told the truth, in whatever order the explorers are asked *)
Section Wallet.
Variables (H : bytes -> bytes) (ip_parse : pystr -> res bytes) (now : Z) (f g : nat -> pystr -> res json).
Hypothesis HH : hash_ok H.
Hypothesis FG : forall n a, Forall path_char a -> f n a = g n a.
Lemma same_lookup n a : Forall path_char a -> lookup H ip_parse now f n a = lookup H ip_parse now g n a.
Proof. intro P. unfold lookup. rewrite (FG n a P). reflexivity. Qed.
Lemma result_wf n a r : lookup H ip_parse now g n a = Ok r -> Forall (fun u => wf_bytes (uh_hash u)) (h_multisigs r).
Proof.
  intro E. unfold lookup in E. apply bind_ok in E as (j & _ & E). unfold unlockhash_get in E. apply key_error_ok in E. apply bind_ok in E as (? & _ & E). apply bind_ok in E as (? & _ & E). apply bind_ok in E as (? & _ & E). apply bind_ok in E as (? & _ & E).
  apply bind_ok in E as (ms & Em & E). apply bind_ok in E as (? & _ & E). apply bind_ok in E as (? & _ & E). apply bind_ok in E as (? & _ & E). apply ok_inj in E. subst r. cbn [h_multisigs].
  apply bind_ok in Em as (l & _ & Em). clear -Em. revert ms Em. induction l as [|x l IH]; intros ms Em; [apply ok_inj in Em; subst; constructor|]. cbn [mapM] in Em. apply bind_ok in Em as (u & U & Em). apply bind_ok in Em as (us & Us & Em). apply ok_inj in Em. subst ms.
  constructor; [exact (parsed_wf H _ _ U)|exact (IH _ Us)].
Qed.
Lemma texts_path us : Forall (fun u => wf_bytes (uh_hash u)) us -> forall l, mapM (uh_str H) us = Ok l -> Forall (fun a => Forall path_char a) l.
Proof.
  intro F. induction F as [|u us W F IH]; intros l E; [apply ok_inj in E; subst; constructor|]. cbn [mapM] in E. apply bind_ok in E as (s & Es & E). apply bind_ok in E as (r & R & E). apply ok_inj in E. subst l.
  constructor; [exact (uh_path H u s HH W Es)|exact (IH _ R)].
Qed.
Lemma same_own info addrs : Forall (fun a => Forall path_char a) addrs -> forall n w ms, load_own H ip_parse now f info n addrs w ms = load_own H ip_parse now g info n addrs w ms /\
  (Forall (fun a => Forall path_char a) ms -> forall w' ms', load_own H ip_parse now g info n addrs w ms = Ok (w', ms') -> Forall (fun a => Forall path_char a) ms').
Proof.
  intro F. induction F as [|a addrs P F IH]; intros n w ms; cbn [load_own].
  - split; [reflexivity|]. intros M w' ms' E. apply ok_inj in E. apply pair_equal_spec in E as [_ <-]. exact M.
  - rewrite (same_lookup n a P). destruct (lookup H ip_parse now g n a) as [r|e] eqn:L.
    + split.
      * apply bind_same. intros x _. apply bind_same. intros w1 _. apply bind_same. intros l _. apply IH.
      * intros M w' ms' E. apply bind_ok in E as (x & _ & E). apply bind_ok in E as (w1 & _ & E). apply bind_ok in E as (l & El & E). apply (proj2 (IH _ _ _)) in E; [exact E|]. apply Forall_app. split; [exact M|]. exact (texts_path _ (result_wf n a r L) _ El).
    + destruct e; try (split; [reflexivity|intros _ w' ms' E; discriminate E]). apply IH.
Qed.
Lemma same_multi info addrs : Forall (fun a => Forall path_char a) addrs -> forall n w, load_multi H ip_parse now f info n addrs w = load_multi H ip_parse now g info n addrs w.
Proof.
  intro F. induction F as [|a addrs P F IH]; intros n w; cbn [load_multi]; [reflexivity|]. rewrite (same_lookup n a P). destruct (lookup H ip_parse now g n a) as [r|e]; [|destruct e; try reflexivity; apply IH].
  apply bind_same. intros x _. apply bind_same. intros w1 _. apply IH.
Qed.
Lemma same_balance info addrs : Forall (fun a => Forall path_char a) addrs -> wallet_balance H ip_parse now f info addrs = wallet_balance H ip_parse now g info addrs.
Proof.
  intro F. unfold wallet_balance. destruct (same_own info addrs F 0 wb_new []) as (E & M). rewrite E. apply bind_same. intros (w & ms) R. rewrite (same_multi info ms (M (Forall_nil _) _ _ R)). reflexivity.
Qed.
Lemma same_collect addrs : Forall (fun a => Forall path_char a) addrs -> forall n l, collect H ip_parse now f n addrs l = collect H ip_parse now g n addrs l.
Proof. intro F. induction F as [|a addrs P F IH]; intros n l; cbn [collect]; [reflexivity|]. rewrite (same_lookup n a P). apply bind_same. intros r _. apply IH. Qed.
End Wallet.
Theorem C97_wallet : forall H ip_parse now requery web loads addrs order truth, hash_ok H ->
  Forall explorer_address addrs -> (forall n e, shuffled addrs (order n e)) -> (forall n e, plain e -> truthful (web n) loads addrs e (truth n e)) ->
  let told n a := web_json requery (web n) loads (map Some addrs) (order n) (s2b "/explorer/hashes/" ++ a) in
  forall mine, Forall (fun a => exists u, wf_bytes (uh_hash u) /\ uh_str H u = Ok a) mine ->
  (forall info, wallet_balance H ip_parse now told info mine = wallet_balance H ip_parse now (fun n a => truth n (s2b "/explorer/hashes/" ++ a)) info mine) /\
  forall shuffle, wallet_transactions H ip_parse now told shuffle mine = wallet_transactions H ip_parse now (fun n a => truth n (s2b "/explorer/hashes/" ++ a)) shuffle mine.
Proof.
  intros H ip now requery web loads addrs order truth HH A S T. cbv zeta. intros mine M.
  assert (FG : forall n a, Forall path_char a -> web_json requery (web n) loads (map Some addrs) (order n) (hashes a) = truth n (hashes a)).
  { intros n a P. pose proof (plain_hashes a P) as Pl. exact (web_truth requery (web n) loads addrs (hashes a) (order n) _ A Pl (S n _) (T n _ Pl)). }
  assert (P : Forall (fun a => Forall path_char a) mine) by (eapply Forall_impl; [|exact M]; intros a (u & W & E); exact (uh_path H u a HH W E)).
  split.
  - intro info. exact (same_balance H ip now (fun n a => web_json requery (web n) loads (map Some addrs) (order n) (hashes a)) (fun n a => truth n (hashes a)) HH FG info mine P).
  - intro sh. unfold wallet_transactions. rewrite (same_collect H ip now (fun n a => web_json requery (web n) loads (map Some addrs) (order n) (hashes a)) (fun n a => truth n (hashes a)) FG mine P). reflexivity.
Qed.
Print Assumptions C97_wallet.

(** *** The explorers a client uses unless told otherwise have such addresses. *)
Theorem C97_explorers : forall t, Forall (fun a => exists s, a = Some s /\ explorer_address s) (Network.nt_explorers t).
Proof.
  assert (X : forall k h : string, lower_scheme (s2b k) -> forallb (fun c => (48 <=? c) && (c <=? 122) && negb (c =? 63) && negb (c =? 59) && negb (c =? 91) && negb (c =? 93) || (c =? 46)) (s2b h) = true -> s2b h <> [] -> explorer_address (s2b k ++ s2b "://" ++ s2b h)).
  { intros k h K F N. exists (s2b k), (s2b h), []. rewrite app_nil_r. split; [reflexivity|]. split; [exact K|]. rewrite forallb_forall in F. split; [|split; [constructor|now left]]. split; [exact N|]. split.
    - apply Forall_forall. intros c I. specialize (F c I). unfold path_char. lia.
    - split; intro I; specialize (F _ I); discriminate F. }
  assert (Ks : lower_scheme (s2b "https") /\ lower_scheme (s2b "http")).
  { split; [exists 104, (s2b "ttps")|exists 104, (s2b "ttp")]; (split; [reflexivity|]; split; [lia|]; apply Forall_forall; intros c I; vm_compute in I; intuition lia). }
  destruct Ks as (K1 & K2). intro t. apply Forall_forall. intros a I. unfold Network.nt_explorers in I.
  destruct (Network.nt_is t 0); [|destruct (Network.nt_is t 1)]; cbn [map] in I; repeat (destruct I as [<-|I]; [eexists; split; [reflexivity|]|]); try (destruct I).
  - exact (X "https" "explorer.threefoldtoken.com" K1 eq_refl ltac:(discriminate))%string.
  - exact (X "https" "explorer2.threefoldtoken.com" K1 eq_refl ltac:(discriminate))%string.
  - exact (X "https" "explorer3.threefoldtoken.com" K1 eq_refl ltac:(discriminate))%string.
  - exact (X "https" "explorer4.threefoldtoken.com" K1 eq_refl ltac:(discriminate))%string.
  - exact (X "https" "explorer.testnet.threefoldtoken.com" K1 eq_refl ltac:(discriminate))%string.
  - exact (X "https" "explorer2.testnet.threefoldtoken.com" K1 eq_refl ltac:(discriminate))%string.
  - exact (X "http" "localhost:23110" K2 eq_refl ltac:(discriminate))%string.
Qed.
Print Assumptions C97_explorers.

(** *** Examples: two explorers, one of which does not answer, on some network *)
Definition exht_addrs : list pystr := [s2b "http://localhost:23110"; s2b "https://explorer.threefoldtoken.com"].
Definition exht_end : pystr := s2b "/explorer/hashes/01ab".
Lemma exht_all a l : forallb (fun c => (33 <=? c) && (c <=? 126) && negb (c =? 63) && negb (c =? 35) && negb (c =? 59)) l = true -> a = l -> Forall path_char a.
Proof. intros F ->. apply Forall_forall. intros c I. rewrite forallb_forall in F. specialize (F c I). unfold path_char. lia. Qed.
Example exht_address : Forall explorer_address exht_addrs.
Proof.
  pose proof (C97_explorers Network.DEVNET) as D. pose proof (C97_explorers Network.STANDARD) as M.
  repeat constructor.
  - rewrite Forall_forall in D. destruct (D (Some (s2b "http://localhost:23110"))) as (s & E & X); [vm_compute; auto|]. congruence.
  - rewrite Forall_forall in M. destruct (M (Some (s2b "https://explorer.threefoldtoken.com"))) as (s & E & X); [vm_compute; auto|]. congruence.
Qed.
Example exht_plain : plain exht_end.
Proof. exists (s2b "explorer/hashes/01ab"). split; [reflexivity|]. eapply exht_all; [|reflexivity]. reflexivity. Qed.
(** A network on which only the second explorer answers, with a line of JSON, to exactly the request it is documented to understand. *)
Definition exht_web (r : hrequest) : outcome :=
  if listN_eqb (hr_url r) (s2b "https://explorer.threefoldtoken.com/explorer/hashes/01ab") && listN_eqb (hr_method r) (s2b "GET") then Answered 200 (s2b "{}") else Unreachable.
Definition exht_loads (b : bytes) : res json := if listN_eqb b (s2b "{}") then Ok (JObj []) else Err ValueError.
Example exht_truth : truthful exht_web exht_loads exht_addrs exht_end (Ok (JObj [])).
Proof.
  split.
  - exists (s2b "https://explorer.threefoldtoken.com"). split; [right; now left|]. intros [E|(b & E)]; vm_compute in E; discriminate E.
  - intros a [<-|[<-|[]]]; [left; left; reflexivity|]. right. left. exists (s2b "{}"). split; vm_compute; reflexivity.
Qed.
Example exht_told : web_json (fun q => q) exht_web exht_loads (map Some exht_addrs) (fun _ => [0; 1]%nat) exht_end = Ok (JObj []).
Proof. vm_compute. reflexivity. Qed.
Example exht_order : fst (web_get (fun q => q) exht_web (map Some exht_addrs) exht_end [0; 1]%nat) = [0; 1]%nat /\ fst (web_get (fun q => q) exht_web (map Some exht_addrs) exht_end [1; 0]%nat) = [1]%nat.
Proof. vm_compute. split; reflexivity. Qed.
(** A URL with all parts is left alone but for its query. *)
Example exht_url : update_url (fun _ => s2b "q=2") (s2b "https://h.io:80/a/b;c?q=1#f") = Ok (s2b "https://h.io:80/a/b;c?q=2#f") /\ update_url (fun _ => s2b "q=2") (s2b "HTTP://h.io") = Ok (s2b "http://h.io").
Proof. vm_compute. split; reflexivity. Qed.
(** Why the texts of things 3Bots are looked up by have to be tidy: a question mark ends the path, and what follows goes through the query. *)
Example exht_untidy : update_url (fun _ => []) (s2b "http://h.io/explorer/whois/3bot/a?b") = Ok (s2b "http://h.io/explorer/whois/3bot/a").
Proof. vm_compute. reflexivity. Qed.
(** Explorers that tell the truth about every endpoint, the first of which never answers *)
Definition exht_net (r : hrequest) : outcome := match hr_url r, hr_method r with 104 :: 116 :: 116 :: 112 :: 115 :: _, 71 :: _ => Answered 200 (s2b "{}") | _, _ => Unreachable end.
Example exht_everywhere : forall e, plain e -> truthful exht_net exht_loads exht_addrs e (Ok (JObj [])).
Proof.
  intros e _. split.
  - exists (s2b "https://explorer.threefoldtoken.com"). split; [right; now left|]. intros [E|(b & E)]; discriminate E.
  - intros a [<-|[<-|[]]]; [left; left; reflexivity|]. right. left. exists (s2b "{}"). split; reflexivity.
Qed.
(** Submitting JSON made by hand *)
Definition exht_pool (r : hrequest) : outcome :=
  if listN_eqb (hr_url r) (s2b "https://explorer.threefoldtoken.com/transactionpool/transactions") && listN_eqb (hr_method r) (s2b "POST") && match hr_data r with Some b => listN_eqb b (s2b "{1}") | None => false end
  then Answered 200 (s2b "{2}") else Unreachable.
Example exht_put : web_put (fun q => q) exht_pool (fun _ => []) (fun _ => Ok (JObj [("transactionid"%string, JStr (hash_str (repeat 7 32)))])) (map Some exht_addrs) (PStr (s2b "{1}")) [0; 1]%nat
  = ([0; 1]%nat, Ok (hash_str (repeat 7 32))).
Proof. vm_compute. reflexivity. Qed.
