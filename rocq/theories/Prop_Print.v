(** C89: the JSON documents of conditions, fulfilments and transactions. *)
From Verif Require Import Base BaseFacts Encoders Currency Primitive Types Conditions Fulfillments ThreeBotTypes Txn Spec_Types Spec_Texts Spec_Show Spec_Wire Prop_Wire Spec_Print TxnJson PrintFacts.
From Coq Require Import ZifyBool ZifyNat ZifyN.

Theorem C89_condition : forall H k, hash_ok H -> Forall wf_bytes (bytes_of_cond k) -> forall j, cond_json H k = Ok j <-> condition_form H k j.
Proof. intros H k HH W. apply is_condition; assumption. Qed.
Print Assumptions C89_condition.
Theorem C89_fulfilment : forall f, Forall wf_bytes (bytes_of_ff f) -> forall j, j = ff_json f <-> fulfilment_form f j.
Proof. intros f W j. rewrite <- (is_fulfilment f W j). split; [intros ->; reflexivity|intros [= <-]; reflexivity]. Qed.
Print Assumptions C89_fulfilment.
Theorem C89_input : forall i, Forall wf_bytes (i_parent i :: bytes_of_ff (i_ff i)) -> forall j, j = in_json i <-> input_form i j.
Proof. intros i W j. rewrite <- (is_input i W j). split; [intros ->; reflexivity|intros [= <-]; reflexivity]. Qed.
Print Assumptions C89_input.
Theorem C89_output : forall H o, hash_ok H -> Forall wf_bytes (bytes_of_cond (o_cond o)) -> forall j, out_json H o = Ok j <-> output_form H o j.
Proof. intros H o HH W. apply is_output; assumption. Qed.
Print Assumptions C89_output.

Lemma data_empty H ip_str t j : data_json H ip_str t = Ok j -> good (bytes_of t) -> hash_ok H -> (jtruthy j = true <-> has_data H t).
Proof.
  intros E W HH. apply (is_data H ip_str HH t W) in E.
  assert (O : forall fs l, Forall2 (fun (f : string * form) (e : string * json) => fst f = fst e /\ snd f (snd e)) fs l -> (jtruthy (JObj l) = true <-> fs <> [])).
  { intros fs l F. inversion F; subst; cbn [jtruthy]; split; congruence. }
  destruct t as [t|t|t|t|t|t|t|t]; cbn [has_data data_form] in *.
  2: unfold mint_form in E.
  5: destruct E as (? & ? & _ & _ & E). 6: destruct E as (? & ? & _ & _ & E). 8: destruct E as (? & _ & E).
  all: destruct E as (l & -> & F); specialize (O _ _ F); first [exact O | rewrite O; split; intro; [exact I|discriminate]].
Qed.
(** every version of transaction, and exactly the fields of its document *)
Theorem C89_transaction : forall H ip_str t, hash_ok H -> Forall wf_bytes (bytes_of t) -> forall j, txn_json H ip_str t = Ok j <-> txn_form H ip_str t j.
Proof.
  intros H ip_str t HH W j. unfold txn_json, txn_form. change (number_of t) with (version t).
  assert (V : is (fun v => v = JVersion (version t)) (Ok (JVersion (version t)))) by (intro v; split; [intros [= <-]; reflexivity|intros ->; reflexivity]).
  assert (A := is_object _ _ (same_cons "version" _ _ _ _ V same_nil)).
  assert (B := is_object _ _ (same_cons "version" _ _ _ _ V (same_cons "data" _ _ _ _ (is_data H ip_str HH t W) same_nil))).
  rewrite <- (A j), <- (B j). cbn [seq bind]. clear A B V.
  destruct (data_json H ip_str t) as [d|] eqn:E; cbn [bind].
  - pose proof (data_empty H ip_str t d E W HH) as D. destruct (jtruthy d); split.
    + intro X. left. split; [apply D; reflexivity|exact X].
    + intros [(_ & X)|(X & _)]; [exact X|]. destruct X. apply D. reflexivity.
    + intro X. right. split; [intro Y; apply D in Y; discriminate|exact X].
    + intros [(X & _)|(_ & X)]; [apply D in X; discriminate|exact X].
  - split; [discriminate|]. intros [(_ & X)|(X & _)]; [discriminate X|].
    destruct t as [t|t|t|t|t|t|t|t]; cbn [has_data] in X; try (destruct X; exact I).
    exfalso. assert (Y : data_form H ip_str (T1 t) (JObj [])).
    { cbn [data_form]. exists []. split; [reflexivity|]. destruct (std_fields H t); [constructor|]. destruct X. discriminate. }
    apply (is_data H ip_str HH (T1 t) W) in Y. rewrite E in Y. discriminate.
Qed.
Print Assumptions C89_transaction.
(** so there is at most one *)
Theorem C89_one : forall H ip_str t i j, hash_ok H -> Forall wf_bytes (bytes_of t) -> txn_form H ip_str t i -> txn_form H ip_str t j -> i = j.
Proof. intros H ip_str t i j HH W A B. apply C89_transaction in A, B; [|assumption..]. rewrite A in B. injection B as E. exact E. Qed.
Print Assumptions C89_one.

(** ** Cases *)
Definition exz_owner : uh := mkuh 1 (repeat 7 32).
Definition exz_text : pystr := s2b "01" ++ concat (repeat (s2b "07") 32) ++ s2b "070707070707".
Definition exz_txn : txn :=
  T1 (mkstd false [mkin (repeat 9 32) (FSingle (mkpk PKEd25519 (repeat 5 32)) None) None]
     [mkout 2500000000 (CUnlockHash exz_owner) []; mkout 1 (CLock 1000 (CMulti [exz_owner] 1)) []] [] [] [100000000] [104; 105]).
(** no block stakes, so no fields for them; a missing signature is an empty text *)
Example C89_ex : Forall wf_bytes (bytes_of exz_txn) /\ txn_form exv_H (fun b => b) exz_txn
  (JObj [("version", JVersion 1); ("data", JObj [
     ("coininputs", JArr [JObj [("parentid", JStr (concat (repeat (s2b "09") 32)));
        ("fulfillment", JObj [("type", JNum 1); ("data", JObj [("publickey", JStr (s2b "ed25519:" ++ concat (repeat (s2b "05") 32))%list); ("signature", JStr [])])])]]);
     ("coinoutputs", JArr [
        JObj [("value", JStr (s2b "2500000000")); ("condition", JObj [("type", JNum 1); ("data", JObj [("unlockhash", JStr exz_text)])])];
        JObj [("value", JStr (s2b "1")); ("condition", JObj [("type", JNum 3); ("data", JObj [("locktime", JNum 1000); ("condition",
          JObj [("type", JNum 4); ("data", JObj [("minimumsignaturecount", JNum 1); ("unlockhashes", JArr [JStr exz_text])])])])])]]);
     ("minerfees", JArr [JStr (s2b "100000000")]);
     ("arbitrarydata", JStr (s2b "aGk="))])])%string.
Proof.
  assert (W : Forall wf_bytes (bytes_of exz_txn)) by (repeat constructor).
  split; [exact W|]. apply C89_transaction; [exact exv_H_ok|exact W|]. vm_compute. reflexivity.
Qed.
(** a standard transaction with nothing in it is only a version *)
Example C89_ex_empty : txn_form exv_H (fun b => b) (T1 (mkstd false [] [] [] [] [] [])) (JObj [("version"%string, JVersion 1)]).
Proof. apply C89_transaction; [exact exv_H_ok|repeat constructor|]. vm_compute. reflexivity. Qed.
(** a record update: only what changes *)
Example C89_ex_update : txn_form exv_H (fun b => b) (T145 (mkupd 7 [] [mkna 0 (s2b "a.org")] [] [] 1 None [] None None None))
  (JObj [("version", JVersion 145); ("data", JObj [("id", JNum 7); ("nrofmonths", JNum 1); ("txfee", JStr (s2b "0")); ("coininputs", JArr []); ("signature", JStr []);
     ("addresses", JObj [("remove", JArr [JStr (s2b "a.org")])])])])%string.
Proof. apply C89_transaction; [exact exv_H_ok|repeat constructor|]. vm_compute. reflexivity. Qed.
(** a registration that was not signed has none *)
Example C89_ex_unsigned : forall j, ~ txn_form exv_H (fun b => b) (T144 (mkbot [] [] 1 None [] None (Some (mkpk PKEd25519 (repeat 5 32))) None)) j.
Proof. intros j X. apply C89_transaction in X; [|exact exv_H_ok|repeat constructor]. vm_compute in X. discriminate. Qed.
(** a registration of a withdrawal address names the address of its key *)
Example C89_ex_registration : exists j, txn_form exv_H (fun b => b) (T210 (mkreg (Some (mkpk PKEd25519 (repeat 5 32))) None None (Some []) None)) j /\
  exists a e, j = JObj [("version", JVersion 210); ("data", JObj [("pubkey", JStr (s2b "ed25519:" ++ concat (repeat (s2b "05") 32))%list); ("tftaddress", JStr a);
    ("erc20address", JStr (s2b "0x" ++ e)%list); ("signature", JStr []); ("regfee", JStr (s2b "10000000000")); ("txfee", JStr (s2b "0")); ("coininputs", JArr [])])]%string.
Proof.
  assert (W : Forall wf_bytes (bytes_of (T210 (mkreg (Some (mkpk PKEd25519 (repeat 5 32))) None None (Some []) None)))) by (repeat constructor).
  destruct (txn_json exv_H (fun b => b) (T210 (mkreg (Some (mkpk PKEd25519 (repeat 5 32))) None None (Some []) None))) as [j|] eqn:E; [|vm_compute in E; discriminate].
  exists j. split; [apply C89_transaction; [exact exv_H_ok|exact W|exact E]|]. vm_compute in E. apply ok_inj in E. subst j. eexists _, _. vm_compute. reflexivity.
Qed.
