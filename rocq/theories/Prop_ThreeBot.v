(** Theorems about 3Bot records: fees (C41), limits and encoding (C42), network addresses (C43), names (C56). *)
From Verif Require Import Base BaseFacts Encoders Currency CurrencyFacts Primitive Types Conditions Fulfillments ThreeBotTypes Txn TxnSign Wallet Ops
  Spec_Types Spec_Txn Spec_Sign TxnFacts Spec_Ops Spec_ThreeBot ThreeBotFacts ThreeBotFacts2 ThreeBotFacts3 OpsFacts OpsFacts3.
From Coq Require Import ZifyBool ZifyNat ZifyN.
Ltac Zify.zify_post_hook ::= Z.div_mod_to_equations.

(** ** C41: the fee is the one of the price list, for all numbers of months, names and addresses within the limits *)
Theorem C41_price : forall t, limits t -> exists c, required_bot_fees t = Ok c /\ in_units c = price t.
Proof. intros t L. destruct (fees_ok t (limits_moderate t L)) as (c & E & _ & U). exists c. split; [exact E | exact U]. Qed.
Print Assumptions C41_price.
(** the monthly part alone, for every number of months that is not astronomical *)
Theorem C41_months : forall m, (0 <= m < 10 ^ 26)%Z -> exists c, monthly_fees m = Ok c /\ in_units c = month_price (Z.to_N m).
Proof. intros m B. destruct (months_ok m B) as (c & E & _ & U). exists c. split; [exact E | exact U]. Qed.
Print Assumptions C41_months.
(** More names or addresses never cost less; more months of the same discount cost more. *)
Theorem C41_monotone_names : forall a n n' m f ci r pk s, (length n <= length n')%nat ->
  price (T144 (mkbot a n m f ci r pk s)) <= price (T144 (mkbot a n' m f ci r pk s)).
Proof. intros. cbn [price b_names b_months]. unfold count, TFT. lia. Qed.
Print Assumptions C41_monotone_names.
Theorem C41_monotone_update : forall i aa ad na nd aa' ad' na' m f ci r s p,
  (length aa <= length aa')%nat -> (length ad <= length ad')%nat -> (length na <= length na')%nat ->
  price (T145 (mkupd i aa ad na nd m f ci r s p)) <= price (T145 (mkupd i aa' ad' na' nd m f ci r s p)).
Proof.
  intros. cbn [price u_addr_add u_addr_del u_name_add u_months]. unfold count, TFT.
  destruct (N.of_nat (length aa) + N.of_nat (length ad) =? 0) eqn:E; destruct (N.of_nat (length aa') + N.of_nat (length ad') =? 0) eqn:F; lia.
Qed.
Print Assumptions C41_monotone_update.
Theorem C41_monotone_months : forall m m', m < m' -> (m' < 12 \/ 12 <= m /\ m' < 24 \/ 24 <= m) -> month_price m < month_price m'.
Proof.
  intros m m' L B. unfold month_price, TFT.
  destruct (m <? 12) eqn:E1, (m' <? 12) eqn:E2, (m <? 24) eqn:E3, (m' <? 24) eqn:E4; lia.
Qed.
Print Assumptions C41_monotone_months.
(** Across a discount a longer registration is cheaper. *)
Theorem C41_discount_cheaper : month_price 12 < month_price 11 /\ month_price 24 < month_price 23.
Proof. vm_compute. auto. Qed.
Print Assumptions C41_discount_cheaper.
Example C41_ex : let t := T145 (mkupd 3 [na_empty] [] [s2b "alpha.beta"] [] 12 None [] None None None) in
  limits t /\ price t = 154 * TFT.
Proof. cbn. repeat split; lia. Qed.

(** ** C42: whatever is assigned or added, with or without success, the record stays within the limits and its texts are ones *)
Theorem C42_limits : forall ip t es, t = registration_new \/ t = update_new \/ t = transfer_new ->
  limits (edit_run ip t es) /\ (ip_ok ip -> lists_ok (edit_run ip t es)).
Proof.
  intros ip t es N. split; [apply run_limits | intro I; apply run_lists; [exact I|]]; destruct new_limits as (A & B & C), new_lists as (D & E & F); destruct N as [->|[->| ->]]; assumption.
Qed.
Print Assumptions C42_limits.
(** A value added to a full list is refused and changes nothing. *)
Theorem C42_full_refused : forall ip b v,
  (length (b_names b) = 5%nat -> edit_txn ip (T144 b) (EName v) = (T144 b, Err RuntimeError)) /\
  (length (b_addrs b) = 10%nat -> edit_txn ip (T144 b) (EAddr v) = (T144 b, Err RuntimeError)).
Proof.
  intros ip b v. destruct b as [x1 x2 x3 x4 x5 x6 x7 x8]. cbn [b_names b_addrs]. split; intro L; cbn [edit_txn edit_bot b_names b_addrs b_months b_fee b_cin b_refund b_pk b_sig]; rewrite (add_all_full _ _ _ _ _ L); reflexivity.
Qed.
Print Assumptions C42_full_refused.
(** An accepted value is appended. *)
Theorem C42_added : forall ip b v s, (length (b_names b) < 5)%nat -> bn_new v = Ok s ->
  exists b', edit_txn ip (T144 b) (EName v) = (T144 b', Ok tt) /\ b_names b' = b_names b ++ [s].
Proof.
  intros ip b v s L E. cbn [edit_txn edit_bot add_all]. replace (length (b_names b) =? MAX_NAMES)%nat with false by (unfold MAX_NAMES; lia). rewrite E. eexists. split; reflexivity.
Qed.
Print Assumptions C42_added.
Theorem C42_months_refused : forall ip b u n,
  (n < 1 \/ 24 < n -> edit_txn ip (T144 b) (EMonths n) = (T144 b, Err ValueError))%Z /\
  (n < 0 \/ 24 < n -> edit_txn ip (T145 u) (EMonths n) = (T145 u, Err ValueError))%Z.
Proof.
  intros. split; intro B; cbn [edit_txn edit_bot edit_upd].
  - replace ((n <? 1) || (24 <? n))%Z with true by lia. reflexivity.
  - replace ((n <? 0) || (24 <? n))%Z with true by lia. reflexivity.
Qed.
Print Assumptions C42_months_refused.
(** The encoding of such a record starts with flag and count bytes from which months, flags, addresses and names are read back. *)
Theorem C42_registration_read : forall H b w, limits (T144 b) -> lists_ok (T144 b) -> data_bytes H (T144 b) = Ok w ->
  exists rest, read_registration w = Some (mkR (Z.to_N (b_months b)) (negb (length (b_addrs b) =? 0)%nat) (negb (length (b_names b) =? 0)%nat)
                                               (some (b_refund b)) (b_addrs b) (b_names b), rest).
Proof. exact bot_read. Qed.
Print Assumptions C42_registration_read.
Theorem C42_update_read : forall H u w, limits (T145 u) -> lists_ok (T145 u) -> data_bytes H (T145 u) = Ok w ->
  exists rest, read_update w = Some (mkU (Z.to_N (u_id u)) (Z.to_N (u_months u)) (negb (length (u_addr_add u) + length (u_addr_del u) =? 0)%nat)
    (negb (length (u_name_add u) + length (u_name_del u) =? 0)%nat) (some (u_refund u)) (u_addr_add u, u_addr_del u) (u_name_add u, u_name_del u), rest).
Proof. exact upd_read. Qed.
Print Assumptions C42_update_read.
Theorem C42_transfer_read : forall H n w, limits (T146 n) -> lists_ok (T146 n) -> array64 (n_ssig n) -> array64 (n_rsig n) -> data_bytes H (T146 n) = Ok w ->
  exists rest, read_transfer w = Some (mkT (Z.to_N (n_sender n)) (Z.to_N (n_receiver n)) (some (n_refund n)) (n_names n), rest).
Proof. exact name_read_txn. Qed.
Print Assumptions C42_transfer_read.
(** The names setter of a name transfer adds to the names already there instead of replacing them. *)
Theorem C42_transfer_setter_refuted : exists ip t t1 t2,
  edit_txn ip transfer_new (ENames (Some [Some (s2b "alpha")])) = (t1, Ok tt) /\ t = t1 /\
  edit_txn ip t (ENames (Some [Some (s2b "gamma")])) = (t2, Ok tt) /\
  match t2 with T146 n => n_names n = [s2b "alpha"; s2b "gamma"] | _ => False end.
Proof. exists (fun _ => Err ValueError). do 3 eexists. split; [vm_compute; reflexivity|]. split; [reflexivity|]. split; vm_compute; reflexivity. Qed.
Print Assumptions C42_transfer_setter_refuted.

Definition ex_host : pystr := s2b "bot.threefold.io".
Definition ex_bot : txn := edit_run (fun _ => Err ValueError) registration_new
  [EMonths 25; EMonths 3; ENames (Some [Some (s2b "alpha"); Some (s2b "x"); Some (s2b "gamma")]); EAddr (Some ex_host); EAddr (Some (s2b "nothing")); EName (Some (s2b "delta.echo5"))].
Example C42_ex : match ex_bot with
  | T144 b => b_months b = 3%Z /\ b_names b = [s2b "alpha"; s2b "delta.echo5"] /\ b_addrs b = [mkna 0 ex_host] /\ is_ok (data_bytes (fun _ => []) ex_bot) = true
  | _ => False end.
Proof. vm_compute. auto. Qed.

(** ** C43 *)
Section IP.
Variables (parse : pystr -> res bytes) (str : bytes -> pystr).
Hypothesis LIB : ip_library parse str.
(** What is accepted: host names of up to 63 characters (with a line feed after it, too), else what [ipaddress] accepts. *)
Theorem C43_accepts : forall s a, na_new parse (Some s) = Ok a <->
  (maybe_newline host_name s /\ (length s <= 63)%nat /\ a = mkna 0 s) \/
  (~ maybe_newline host_name s /\ exists p, parse s = Ok p /\ a = na_packed p).
Proof.
  intros s a. destruct (re_match hostname_re s) eqn:M.
  - apply host_match in M. rewrite (na_new_host _ _ M). destruct (length s <=? 63)%nat eqn:L; split.
    + intro E. apply ok_inj in E. left. repeat split; [exact M | lia | auto].
    + intros [(_ & _ & ->)|[N _]]; [reflexivity | contradiction].
    + discriminate.
    + intros [(_ & X & _)|[N _]]; [lia | contradiction].
  - assert (N : ~ maybe_newline host_name s) by (intro X; apply host_match in X; congruence). rewrite (na_new_other _ _ N). split.
    + intro E. apply bind_ok in E as (p & P & E). apply ok_inj in E. right. eauto.
    + intros [[X _]|(_ & p & P & ->)]; [contradiction|]. rewrite P. reflexivity.
Qed.
(** Every accepted address is encoded, and read back from its encoding whatever follows. *)
Theorem C43_decodable : forall v a, na_new parse v = Ok a ->
  exists w, na_riv a = Ok w /\ forall rest, read_address (w ++ rest) = Some (a, rest).
Proof. intros v a E. apply addr_read, good_ok, (new_good _ _ LIB _ _ E). Qed.
(** Different accepted addresses encode differently, and neither encoding is the beginning of the other. *)
Theorem C43_distinct : forall v v' a a' w x y, na_new parse v = Ok a -> na_new parse v' = Ok a' ->
  na_riv a = Ok w -> na_riv a' = Ok x -> w ++ y = x -> a = a' /\ y = [].
Proof.
  intros v v' a a' w x y E E' W X Y. apply C43_decodable in E as (w' & W' & R), E' as (x' & X' & R'). rewrite W in W'. rewrite X in X'. apply ok_inj in W', X'. subst w' x'.
  specialize (R y). specialize (R' []). rewrite app_nil_r in R'. rewrite Y in R. rewrite R in R'. injection R'. auto.
Qed.
(** The text of every accepted address, in JSON too, gives the same address again. *)
Theorem C43_text : forall v a, na_new parse v = Ok a -> na_from_json parse (JStr (na_str str a)) = Ok a.
Proof. intros v a E. apply (good_text _ _ LIB), (new_good _ _ LIB _ _ E). Qed.
(** IPv4 addresses in IPv6 notation are IPv4 addresses. *)
Theorem C43_mapped : forall s p, ~ maybe_newline host_name s -> parse s = Ok (mapped_prefix ++ p) -> na_new parse (Some s) = Ok (mkna 1 p).
Proof.
  intros s p N P. rewrite (na_new_other _ _ N), P. cbn [bind]. destruct (ip_sizes _ _ LIB _ _ P) as [L _]. rewrite app_length in L. unfold na_packed.
  rewrite app_length. replace (_ =? 4)%nat with false by (change (length mapped_prefix) with 12%nat in *; lia). reflexivity.
Qed.
End IP.
Print Assumptions C43_accepts.
Print Assumptions C43_decodable.
Print Assumptions C43_distinct.
Print Assumptions C43_text.
Print Assumptions C43_mapped.
(** A NetworkAddress holding an IP address can not be given as value, one holding a host name can. *)
Theorem C43_copy_refuted : forall parse a, na_value parse (NVAddr a) = (if na_type a =? 0 then Ok a else Err AttributeError).
Proof. reflexivity. Qed.
Print Assumptions C43_copy_refuted.


(** An instance of [ip_library]: dotted decimals, and eight groups of four hexadecimal digits.  ([ipaddress] also accepts other
    notations of IPv6 addresses.) *)
Definition dec3 (n : N) : pystr :=
  if n <? 10 then [48 + n] else if n <? 100 then [48 + n / 10; 48 + n mod 10] else [48 + n / 100; 48 + (n / 10) mod 10; 48 + n mod 10].
Definition hexd (n : N) : N := if n <? 10 then 48 + n else 87 + n.
Definition hex2 (n : N) : pystr := [hexd (n / 16); hexd (n mod 16)].
Definition lookup_by (f : N -> pystr) (s : pystr) : res N :=
  match find (fun n => listN_eqb (f n) s) (map N.of_nat (seq 0 256)) with Some n => Ok n | None => Err ValueError end.
Fixpoint joinc (c : N) (l : list pystr) : pystr :=
  match l with [] => [] | [a] => a | a :: l => a ++ c :: joinc c l end.
Fixpoint splitc (c : N) (cur : pystr) (s : pystr) : list pystr :=
  match s with [] => [rev cur] | x :: s => if x =? c then rev cur :: splitc c [] s else splitc c (x :: cur) s end.
Fixpoint pairs (p : bytes) : list pystr := match p with a :: b :: p => (hex2 a ++ hex2 b) :: pairs p | _ => [] end.
Definition ex_ip_str (p : bytes) : pystr := if (length p =? 4)%nat then joinc 46 (map dec3 p) else joinc 58 (pairs p).
Fixpoint unpairs (l : list pystr) : res bytes :=
  match l with [] => Ok [] | g :: l => do a <- lookup_by hex2 (firstn 2 g); do b <- lookup_by hex2 (skipn 2 g); do r <- unpairs l; Ok (a :: b :: r) end.
Definition ex_ip_parse (s : pystr) : res bytes :=
  if existsb (fun c => c =? 58) s
  then let l := splitc 58 [] s in if (length l =? 8)%nat then unpairs l else Err ValueError
  else let l := splitc 46 [] s in if (length l =? 4)%nat then mapM (lookup_by dec3) l else Err ValueError.
Lemma lookup_ok f s n : lookup_by f s = Ok n -> n < 256.
Proof.
  unfold lookup_by. destruct (find _ _) as [m|] eqn:E; [|discriminate]. intro X. apply ok_inj in X. subst m. apply find_some in E as [I _]. apply in_map_iff in I as (k & <- & I). apply in_seq in I. lia.
Qed.
Lemma table (P : N -> bool) : forallb P (map N.of_nat (seq 0 256)) = true -> forall n, n < 256 -> P n = true.
Proof.
  intros F n L. apply (proj1 (forallb_forall _ _) F). apply in_map_iff. exists (N.to_nat n). split; [lia|]. apply in_seq. lia.
Qed.
Definition is_res (r : res N) (n : N) : bool := match r with Ok m => m =? n | Err _ => false end.
Lemma is_res_ok r n : is_res r n = true -> r = Ok n.
Proof. destruct r as [m|]; cbn; intro E; [|discriminate]. f_equal. lia. Qed.
Lemma dec_table n : n < 256 -> lookup_by dec3 (dec3 n) = Ok n.
Proof. intro L. apply is_res_ok. apply (table (fun n => is_res (lookup_by dec3 (dec3 n)) n)); [vm_compute; reflexivity | exact L]. Qed.
Lemma hex_table n : n < 256 -> lookup_by hex2 (hex2 n) = Ok n.
Proof. intro L. apply is_res_ok. apply (table (fun n => is_res (lookup_by hex2 (hex2 n)) n)); [vm_compute; reflexivity | exact L]. Qed.
Lemma splitc_run c g : forallb (fun x => negb (x =? c)) g = true -> forall cur s, splitc c cur (g ++ s) = splitc c (rev g ++ cur) s.
Proof.
  induction g as [|x g IH]; intros F cur s; [reflexivity|]. cbn in F |- *. apply andb_true_iff in F as [X F]. replace (x =? c) with false by (destruct (x =? c); easy).
  rewrite (IH F). now rewrite <- app_assoc.
Qed.
Lemma split_join c l : l <> [] -> forallb (forallb (fun x => negb (x =? c))) l = true -> splitc c [] (joinc c l) = l.
Proof.
  induction l as [|g l IH]; intros N F; [congruence|]. cbn in F. apply andb_true_iff in F as [G F]. destruct l as [|h l].
  - cbn [joinc]. rewrite <- (app_nil_r g) at 1. rewrite (splitc_run _ _ G). cbn. rewrite app_nil_r, rev_involutive. reflexivity.
  - change (joinc c (g :: h :: l)) with (g ++ c :: joinc c (h :: l)). rewrite (splitc_run _ _ G). cbn [splitc]. rewrite N.eqb_refl. rewrite app_nil_r, rev_involutive. f_equal. apply IH; [discriminate | exact F].
Qed.
Lemma no_in_join c d l : c <> d -> forallb (forallb (fun x => negb (x =? c))) l = true -> existsb (fun x => x =? c) (joinc d l) = false.
Proof.
  intros N. induction l as [|g l IH]; intro F; [reflexivity|]. cbn in F. apply andb_true_iff in F as [G F].
  assert (X : existsb (fun x => x =? c) g = false). { clear -G. induction g as [|x g IH]; [reflexivity|]. cbn in *. apply andb_true_iff in G as [A B]. rewrite (IH B). destruct (x =? c); easy. }
  destruct l as [|h l]; [exact X|]. change (joinc d (g :: h :: l)) with (g ++ d :: joinc d (h :: l)). rewrite existsb_app, X. cbn [existsb orb]. rewrite (IH F). replace (d =? c) with false by lia. reflexivity.
Qed.
Lemma dec_plain l c : Forall (fun b => b < 256) l -> c = 46 \/ c = 58 -> forallb (forallb (fun x => negb (x =? c))) (map dec3 l) = true.
Proof.
  intros F C. induction F as [|b l B F IH]; [reflexivity|]. cbn [map forallb]. rewrite IH, andb_true_r. clear IH F.
  apply (table (fun b => forallb (fun x => negb (x =? c)) (dec3 b))); [destruct C as [->| ->]; vm_compute; reflexivity | exact B].
Qed.
Lemma hex_plain b : b < 256 -> forallb (fun x => negb (x =? 58)) (hex2 b) = true.
Proof. intro B. apply (table (fun b => forallb (fun x => negb (x =? 58)) (hex2 b))); [vm_compute; reflexivity | exact B]. Qed.
Lemma mapM_dec l : Forall (fun b => b < 256) l -> mapM (lookup_by dec3) (map dec3 l) = Ok l.
Proof. induction 1 as [|b l B F IH]; [reflexivity|]. cbn [map mapM]. rewrite (dec_table _ B). cbn [bind]. rewrite IH. reflexivity. Qed.
Lemma mapM_bytes l p : mapM (lookup_by dec3) l = Ok p -> length p = length l /\ Forall (fun b => b < 256) p.
Proof.
  revert p. induction l as [|g l IH]; intros p E; cbn [mapM] in E; [apply ok_inj in E; subst p; auto|]. apply bind_ok in E as (b & B & E). apply bind_ok in E as (r & R & E). apply ok_inj in E. subst p.
  destruct (IH _ R) as [L F]. split; [cbn; lia|]. constructor; [exact (lookup_ok _ _ _ B) | exact F].
Qed.
Lemma unpairs_bytes l : forall p, unpairs l = Ok p -> length p = (2 * length l)%nat /\ Forall (fun b => b < 256) p.
Proof.
  induction l as [|g l IH]; intros p E; cbn [unpairs] in E; [apply ok_inj in E; subst p; auto|]. apply bind_ok in E as (a & A & E). apply bind_ok in E as (b & B & E). apply bind_ok in E as (r & R & E). apply ok_inj in E. subst p.
  destruct (IH _ R) as [L F]. split; [cbn; lia|]. constructor; [exact (lookup_ok _ _ _ A)|]. constructor; [exact (lookup_ok _ _ _ B) | exact F].
Qed.
Example C43_library : ip_library ex_ip_parse ex_ip_str.
Proof.
  split.
  - intros s p. unfold ex_ip_parse. destruct (existsb _ s).
    + destruct (length (splitc 58 [] s) =? 8)%nat eqn:L; [|discriminate]. intro E. apply unpairs_bytes in E as [X F]. split; [right; lia | exact F].
    + destruct (length (splitc 46 [] s) =? 4)%nat eqn:L; [|discriminate]. intro E. apply mapM_bytes in E as [X F]. split; [left; lia | exact F].
  - intros p [L|L] F; unfold ex_ip_parse, ex_ip_str; rewrite L.
    + change (4 =? 4)%nat with true. cbn iota. rewrite (no_in_join 58 46) by (try lia; apply dec_plain; auto). cbn iota.
      rewrite split_join by (try (apply dec_plain; auto); destruct p; discriminate). cbv zeta. rewrite map_length, L. change (4 =? 4)%nat with true. cbn iota. apply mapM_dec, F.
    + change (16 =? 4)%nat with false. cbn iota. do 16 (destruct p as [|? p]; [discriminate|]). destruct p; [|discriminate]. clear L.
      repeat match goal with F : Forall _ (_ :: _) |- _ => inversion F; clear F; subst end.
      cbn [pairs]. rewrite split_join; [|discriminate|].
      * match goal with |- context [existsb ?f (joinc ?c (?g :: ?h :: ?l))] => assert (E : existsb f (joinc c (g :: h :: l)) = true) end.
        { cbn [joinc]. rewrite existsb_app. cbn [existsb]. rewrite N.eqb_refl. cbn [orb]. apply orb_true_r. }
        rewrite E. clear E. cbv zeta. cbn [length]. change (8 =? 8)%nat with true. cbn iota.
        assert (U : forall a b l r, a < 256 -> b < 256 -> unpairs l = Ok r -> unpairs ((hex2 a ++ hex2 b) :: l) = Ok (a :: b :: r)).
        { intros a b l r A B R. cbn [unpairs]. change (firstn 2 (hex2 a ++ hex2 b)) with (hex2 a). change (skipn 2 (hex2 a ++ hex2 b)) with (hex2 b). rewrite (hex_table _ A), (hex_table _ B). cbn [bind]. rewrite R. reflexivity. }
        repeat (apply U; [assumption | assumption |]). reflexivity.
      * assert (P : forall a b l, a < 256 -> b < 256 -> forallb (forallb (fun x => negb (x =? 58))) l = true -> forallb (forallb (fun x => negb (x =? 58))) ((hex2 a ++ hex2 b) :: l) = true).
        { intros a b l A B L. cbn [forallb]. rewrite forallb_app, (hex_plain _ A), (hex_plain _ B), L. reflexivity. }
        repeat (apply P; [assumption | assumption |]). reflexivity.
  - intros p L F. unfold ex_ip_str. rewrite L. change (4 =? 4)%nat with true. cbn iota. do 4 (destruct p as [|? p]; [discriminate|]). destruct p; [|discriminate]. cbn [map joinc].
    repeat match goal with F : Forall _ (_ :: _) |- _ => inversion F; clear F; subst end.
    assert (D : forall b, b < 256 -> exists t c, dec3 b = t ++ [c] /\ digit c).
    { intros b B. unfold dec3, digit. destruct (b <? 10) eqn:E1; [exists []; eexists; split; [reflexivity | lia]|]. destruct (b <? 100) eqn:E2; [exists [48 + b / 10]; eexists; split; [reflexivity | lia]|].
      exists [48 + b / 100; 48 + (b / 10) mod 10]. eexists. split; [reflexivity | lia]. }
    destruct (D n2) as (t & c & E & Dc); [assumption|]. rewrite E. exists (dec3 n ++ 46 :: dec3 n0 ++ 46 :: dec3 n1 ++ 46 :: t), c. split; [|exact Dc].
    rewrite <- !app_assoc. cbn [app]. rewrite <- !app_assoc. cbn [app]. rewrite <- !app_assoc. reflexivity.
  - intros p L F. unfold ex_ip_str. rewrite L. change (16 =? 4)%nat with false. cbn iota. do 4 (destruct p as [|? p]; [discriminate|]). cbn [pairs joinc]. apply in_or_app. right. left. reflexivity.
Qed.
Example C43_ex : na_new ex_ip_parse (Some (s2b "10.0.0.254")) = Ok (mkna 1 [10; 0; 0; 254]) /\
  na_new ex_ip_parse (Some (s2b "0000:0000:0000:0000:0000:ffff:7f00:0001")) = Ok (mkna 1 [127; 0; 0; 1]) /\
  na_new ex_ip_parse (Some ex_host) = Ok (mkna 0 ex_host) /\ na_riv (mkna 0 ex_host) = Ok (64 :: ex_host).
Proof. vm_compute. auto. Qed.

(** ** C56: 3Bot names *)
Theorem C56_accepts : forall s r, bn_new (Some s) = Ok r <-> r = s /\ (length s <= 63)%nat /\ maybe_newline bot_name s.
Proof. intros s r. exact (bn_new_iff (Some s) r). Qed.
Print Assumptions C56_accepts.
(** The line feed is accepted, which the name grammar does not allow. *)
Theorem C56_newline_refuted : exists s, bn_new (Some s) = Ok s /\ ~ bot_name s.
Proof.
  exists (s2b "alpha" ++ [10]). split; [vm_compute; reflexivity|]. intros N. 
  assert (R : rmatch botname_re (s2b "alpha" ++ [10]) = true) by (apply rmatch_ok, name_ok; exact N). vm_compute in R. discriminate.
Qed.
Print Assumptions C56_newline_refuted.
Theorem C56_decodable : forall v s, bn_new v = Ok s -> exists w, bn_riv s = Ok w /\ forall rest, read_name (w ++ rest) = Some (s, rest).
Proof. intros v s E. apply name_read, (bn_new_ok _ _ E). Qed.
Print Assumptions C56_decodable.
Theorem C56_json : forall v s, bn_new v = Ok s -> bn_from_json (JStr s) = Ok s.
Proof.
  intros v s E. pose proof E as E'. apply bn_new_iff in E'. destruct v as [t|].
  - destruct E' as (-> & _ & _). cbn [bn_from_json]. destruct t; [reflexivity | exact E].
  - subst s. reflexivity.
Qed.
Print Assumptions C56_json.
Example C56_ex : is_ok (bn_new (Some (s2b "alpha.beta5"))) = true /\ is_ok (bn_new (Some (s2b "abcd"))) = false /\ is_ok (bn_new (Some (s2b "alpha-.beta5"))) = false.
Proof. vm_compute. auto. Qed.
