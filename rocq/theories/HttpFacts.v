(** Requests over HTTP. *)
From Coq Require Import Permutation.
From Verif Require Import Base BaseFacts Encoders Currency Primitive Types Conditions Fulfillments ThreeBotTypes Txn TxnJson Wallet Explorer Lookups WalletLoad Http
  Spec_Types Spec_Explorer Spec_Lookup Spec_Http TypesFacts ExplorerFacts ExplorerFacts3 LookupFacts.
From Coq Require Import ZifyBool ZifyNat ZifyN.
Ltac Zify.zify_post_hook ::= Z.div_mod_to_equations.

Lemma cut_none c s : ~ In c s -> cut c s = None.
Proof. induction s as [|x s IH]; [reflexivity|]. intro N. cbn [cut]. destruct (x =? c) eqn:E; [exfalso; apply N; left; lia|]. rewrite IH; [reflexivity|]. intro I. apply N. now right. Qed.
Lemma cut_at c a b : ~ In c a -> cut c (a ++ c :: b) = Some (a, b).
Proof. induction a as [|x a IH]; intro N; cbn [app cut]; [rewrite N.eqb_refl; reflexivity|]. destruct (x =? c) eqn:E; [exfalso; apply N; left; lia|]. rewrite IH; [reflexivity|]. intro I. apply N. now right. Qed.
Lemma span_at stop a x b : Forall (fun c => stop c = false) a -> stop x = true -> span stop (a ++ x :: b) = (a, x :: b).
Proof. intros F X. induction F as [|y a Y F IH]; cbn [app span]; [rewrite X; reflexivity|]. rewrite Y, IH. reflexivity. Qed.
Lemma path_not c s : Forall path_char s -> c = 35 \/ c = 59 \/ c = 63 -> ~ In c s.
Proof. intros F C I. rewrite Forall_forall in F. apply F in I. unfold path_char in I. lia. Qed.
Lemma existsb_not c s : ~ In c s -> existsb (N.eqb c) s = false.
Proof. intro N. destruct (existsb (N.eqb c) s) eqn:E; [|reflexivity]. apply existsb_exists in E as (x & I & E). apply N.eqb_eq in E. subst. contradiction. Qed.
Lemma existsb_is c s : existsb (N.eqb c) s = true <-> In c s.
Proof. rewrite existsb_exists. split; [intros (x & I & E); apply N.eqb_eq in E; subst; exact I|intro I; exists c; split; [exact I|apply N.eqb_refl]]. Qed.

Section Url.
Variable requery : pystr -> pystr.
Lemma url_kept a e : explorer_address a -> plain e -> update_url requery (a ++ e) = Ok (a ++ e).
Proof.
  intros (k & h & p & -> & (k0 & kl & -> & K0 & Kl) & (Hn & Hh & Hb) & Pp & Ps) (r & -> & Pr).
  assert (PP : Forall path_char (p ++ 47 :: r)) by (apply Forall_app; split; [exact Pp|]; constructor; [unfold path_char; lia|exact Pr]).
  set (path := p ++ 47 :: r) in *. assert (Hp : exists q, path = 47 :: q) by (destruct Ps as [->|(q & ->)]; [exists r; reflexivity|exists (q ++ 47 :: r); reflexivity]).
  replace (((k0 :: kl) ++ s2b "://" ++ h ++ p) ++ 47 :: r) with ((k0 :: kl) ++ 58 :: 47 :: 47 :: h ++ path) by (unfold path; rewrite <- !app_assoc; reflexivity).
  assert (Nk : ~ In 58 (k0 :: kl)) by (intros [I|I]; [lia|]; rewrite Forall_forall in Kl; apply Kl in I; lia).
  assert (Sc : forallb scheme_char (k0 :: kl) = true).
  { apply forallb_forall. intros c I. assert (Q : 97 <= c <= 122 \/ 48 <= c <= 57 \/ c = 43 \/ c = 45 \/ c = 46) by (destruct I as [<-|I]; [lia|]; rewrite Forall_forall in Kl; exact (Kl _ I)). unfold scheme_char. lia. }
  assert (Lo : lower (k0 :: kl) = k0 :: kl).
  { assert (F : Forall (fun c => 97 <= c <= 122 \/ 48 <= c <= 57 \/ c = 43 \/ c = 45 \/ c = 46) (k0 :: kl)) by (constructor; [lia|exact Kl]). clear -F. unfold lower. induction F as [|c l C F IH]; [reflexivity|]. cbn [map]. rewrite IH. f_equal. unfold lower_c. destruct ((65 <=? c) && (c <=? 90)) eqn:E; lia. }
  unfold update_url, urlparse, split_scheme. rewrite (cut_at 58 _ _ Nk). rewrite Sc, Lo. set (k := k0 :: kl) in *.
  destruct Hp as (q & Eq). rewrite Eq. rewrite (span_at _ h 47 q); [|eapply Forall_impl; [|exact Hh]; intros c (C & N); unfold path_char in C; cbn beta; lia|reflexivity].
  assert (Bool.eqb (existsb (N.eqb 91) h) (existsb (N.eqb 93) h) = true) as ->.
  { rewrite <- !existsb_is in Hb. destruct (existsb (N.eqb 91) h), (existsb (N.eqb 93) h); cbn; try reflexivity; intuition discriminate. }
  rewrite Eq in PP. cbn [guard bind]. rewrite (cut_none 35) by (apply path_not; auto). rewrite (cut_none 63) by (apply path_not; auto).
  rewrite (existsb_not 59) by (apply path_not; auto). rewrite andb_false_r. cbn [bind u_scheme u_netloc u_path u_params u_query u_fragment]. unfold urlunparse. cbn [u_scheme u_netloc u_path u_params u_query u_fragment].
  destruct h as [|h0 hl]; [contradiction|]. cbn [length Nat.eqb negb orb]. unfold k. cbn [app]. reflexivity.
Qed.
Lemma sent_get a e : explorer_address a -> plain e -> get_request requery a e = Ok (asked a e).
Proof.
  intros A P. unfold get_request, http_request. rewrite (url_kept a e A P). cbn [bind]. destruct A as (k & h & p & -> & (k0 & kl & -> & K0 & Kl) & _).
  rewrite <- !app_assoc. change (s2b "://" ++ h ++ p ++ e) with (58 :: 47 :: 47 :: h ++ p ++ e). rewrite (cut_at 58 (k0 :: kl)); [|intros [I|I]; [lia|]; rewrite Forall_forall in Kl; apply Kl in I; lia].
  cbn [guard bind]. unfold asked. rewrite <- !app_assoc. reflexivity.
Qed.
Lemma sent_post a e d : explorer_address a -> plain e -> d <> [] -> post_request requery a e d = Ok (posted a e d).
Proof.
  intros A P N. unfold post_request, http_request. rewrite (url_kept a e A P). cbn [bind]. destruct A as (k & h & p & -> & (k0 & kl & -> & K0 & Kl) & _).
  rewrite <- !app_assoc. change (s2b "://" ++ h ++ p ++ e) with (58 :: 47 :: 47 :: h ++ p ++ e). rewrite (cut_at 58 (k0 :: kl)); [|intros [I|I]; [lia|]; rewrite Forall_forall in Kl; apply Kl in I; lia].
  cbn [guard bind]. unfold posted. rewrite <- !app_assoc. destruct d; [contradiction|reflexivity].
Qed.
End Url.

(** *** Texts of endpoints *)
Lemma low_path c : lowhex c -> path_char c.
Proof. unfold lowhex, path_char. lia. Qed.
Lemma hex_path b : wf_bytes b -> Forall path_char (hex b).
Proof. intro W. eapply Forall_impl; [exact low_path|apply hex_low; exact W]. Qed.
Lemma hash_path b : wf_bytes b -> Forall path_char (hash_str b).
Proof.
  intro W. unfold hash_str. pose proof (hex_path b W) as F. destruct (hex b); [|exact F]. change (repeatN 48 64) with (repeat 48 64). apply Forall_forall. intros c I. apply repeat_spec in I. subst. unfold path_char. lia.
Qed.
Lemma z_path z : Forall path_char (z_str z).
Proof.
  assert (D : forall n, Forall path_char (dec_str n)) by (intro n; eapply Forall_impl; [|exact (dec_str_digits n)]; intros c C; unfold is_digit in C; unfold path_char; lia).
  unfold z_str. destruct (z <? 0)%Z; [constructor; [unfold path_char; lia|]|]; apply D.
Qed.
Lemma uh_path H u s : hash_ok H -> wf_bytes (uh_hash u) -> uh_str H u = Ok s -> Forall path_char s.
Proof.
  intros HH W E. unfold uh_str in E. apply bind_ok in E as (c & C & E). apply bind_ok in E as ([] & G & E). apply guard_ok in G. apply ok_inj in E. subst s.
  assert (Wc : wf_bytes c).
  { unfold uh_checksum in C. destruct (uh_type u =? 0)%Z; [apply ok_inj in C; subst c; repeat constructor; lia|]. apply bind_ok in C as (d & _ & C). apply ok_inj in C. subst c. apply HH. }
  apply Forall_app. split; [apply hex_path; constructor; [lia|constructor]|]. apply Forall_app. split; [exact (hash_path _ W)|]. apply hex_path. clear -Wc. unfold wf_bytes in *. rewrite Forall_forall in *. intros x I. apply Wc.
  rewrite <- (firstn_skipn 6 c). apply in_or_app. now left.
Qed.
Lemma parsed_wf H j u : uh_from_json H j = Ok u -> wf_bytes (uh_hash u).
Proof. destruct j; try discriminate. intro E. apply uh_parse_sound in E as (_ & _ & E & _). exact (unhex_wf _ _ E). Qed.
Lemma pk_path p : wf_bytes (pk_hash p) -> Forall path_char (pk_str p).
Proof.
  intro W. unfold pk_str. apply Forall_app. split; [destruct (pk_spec p); [constructor|]; apply Forall_forall; intros c I; vm_compute in I; unfold path_char; intuition lia|]. constructor; [unfold path_char; lia|exact (hash_path _ W)].
Qed.
Lemma plain_hashes id : Forall path_char id -> plain (hashes id).
Proof.
  intro F. exists (s2b "explorer/hashes/" ++ id). split; [reflexivity|]. apply Forall_app. split; [|exact F]. apply Forall_forall. intros c I. vm_compute in I. unfold path_char. intuition lia.
Qed.
Lemma plain_lit (x : string) s r : s = 47 :: r -> s2b x = s -> forallb (fun c => (33 <=? c) && (c <=? 126) && negb (c =? 63) && negb (c =? 35) && negb (c =? 59)) r = true -> forall t, Forall path_char t -> plain (s2b x ++ t).
Proof.
  intros -> -> F t T. exists (r ++ t). split; [reflexivity|]. apply Forall_app. split; [|exact T]. apply Forall_forall. intros c I. rewrite forallb_forall in F. specialize (F c I). unfold path_char. lia.
Qed.

(** *** Answers *)
Section Ask.
Variables (requery : pystr -> pystr) (web : hrequest -> outcome).
Lemma try_all_ext step addrs ready f g order : (forall i, In i order -> f i = g i) -> try_all step addrs ready f order = try_all step addrs ready g order.
Proof.
  induction order as [|i order IH]; intro E; [reflexivity|]. cbn [try_all]. rewrite (E i (or_introl eq_refl)), IH by (intros j J; apply E; now right). reflexivity.
Qed.
Lemma web_get_asked addrs e order : Forall explorer_address addrs -> plain e -> shuffled addrs order ->
  web_get requery web (map Some addrs) e order = explorer_get (map Some addrs) (fun i => web (asked (nth i addrs []) e)) order.
Proof.
  intros A P S. unfold web_get, explorer_get. apply try_all_ext. intros i I. apply (Permutation_in _ S) in I. apply in_seq in I.
  assert (L : (i < length addrs)%nat) by lia. rewrite nth_error_map. destruct (nth_error addrs i) as [a|] eqn:E; [|apply nth_error_None in E; lia]. cbn [option_map].
  pose proof (nth_error_nth _ _ [] E) as Q. cbv beta. unfold pystr, bytes in *. rewrite Q. rewrite Forall_forall in A. rewrite (sent_get requery a e (A a (nth_error_In _ _ E)) P). reflexivity.
Qed.
Lemma web_post_asked dumps addrs e d b order : Forall explorer_address addrs -> plain e -> shuffled addrs order -> post_data dumps d = Ok b -> b <> [] ->
  web_post requery web dumps (map Some addrs) e d order = explorer_post dumps (map Some addrs) d (fun i => web (posted (nth i addrs []) e b)) order.
Proof.
  intros A P S D N. unfold web_post, explorer_post. rewrite D. apply try_all_ext. intros i I. apply (Permutation_in _ S) in I. apply in_seq in I.
  assert (L : (i < length addrs)%nat) by lia. rewrite nth_error_map. destruct (nth_error addrs i) as [a|] eqn:E; [|apply nth_error_None in E; lia]. cbn [option_map].
  pose proof (nth_error_nth _ _ [] E) as Q. cbv beta. unfold pystr, bytes in *. rewrite Q. rewrite Forall_forall in A. rewrite (sent_post requery a e b (A a (nth_error_In _ _ E)) P N). reflexivity.
Qed.
Variable loads : bytes -> res json.
(** the truth is told whatever the order *)
Lemma web_truth addrs e order truth : Forall explorer_address addrs -> plain e -> shuffled addrs (order e) -> truthful web loads addrs e truth ->
  web_json requery web loads (map Some addrs) order e = truth.
Proof.
  intros A P S (W & T). unfold web_json. rewrite (web_get_asked addrs e _ A P S). unfold explorer_get.
  assert (Tx : texts (map Some addrs)) by (apply Forall_forall; intros x I; apply in_map_iff in I as (y & <- & _); discriminate).
  destruct (shuffled_bound addrs (order e) S) as (B & _). assert (B' : Forall (fun i => (i < length (map Some addrs))%nat) (order e)) by (rewrite map_length; exact B).
  pose proof (try_search get_step get_says get_step_none get_step_some (map Some addrs) (fun i => web (asked (nth i addrs []) e)) (order e) Tx B') as Q. cbv zeta in Q.
  destruct Q as [(_ & F & _)|(bf & i & r & E & _ & _ & Ns & Sy)].
  - exfalso. destruct W as (a & Ia & Na). apply Na. apply In_nth_error in Ia as (j & J). rewrite Forall_forall in F. assert (Ij : In j (order e)).
    { apply (Permutation_in _ (Permutation_sym S)). apply in_seq. split; [lia|]. apply nth_error_Some. congruence. }
    specialize (F j Ij). cbv beta in F. pose proof (nth_error_nth _ _ [] J) as Q. unfold pystr, bytes in *. rewrite Q in F. exact F.
  - assert (Ii : In i (order e)) by (rewrite E; apply in_or_app; right; now left). rewrite Forall_forall in B. pose proof (B i Ii) as L.
    destruct (T (nth i addrs [])) as [Z|Z]; [apply nth_In; exact L|contradiction|]. destruct Z as [(line & El & Lo)|(Et & [(line & El)|(body & Eb & X)])].
    + rewrite El in Sy. inversion Sy; subst; try contradiction. reflexivity.
    + rewrite El in Sy. inversion Sy; subst; try contradiction. reflexivity.
    + rewrite Eb in Sy. inversion Sy as [| | | |? X'|? ? N1 N2|]; subst; [reflexivity|]. exfalso. destruct N2 as [N2|(N2 & N3)]; [contradiction|]. destruct X; congruence.
Qed.
End Ask.
