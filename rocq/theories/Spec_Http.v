(** Vocabulary for requests over HTTP (C97). *)
From Verif Require Import Base Primitive Types Conditions Fulfillments Txn TxnJson Explorer Lookups Http Spec_Explorer.

(** a visible ASCII character that does not end the path of a URL: no question mark, hash sign or semicolon *)
Definition path_char (c : N) : Prop := 33 <= c <= 126 /\ c <> 63 /\ c <> 35 /\ c <> 59.
(** The address of an explorer: kind, host (maybe with a port) and maybe a path. *)
Definition lower_scheme (s : pystr) : Prop := exists a l, s = a :: l /\ 97 <= a <= 122 /\ Forall (fun c => 97 <= c <= 122 \/ 48 <= c <= 57 \/ c = 43 \/ c = 45 \/ c = 46) l.
Definition host (s : pystr) : Prop := s <> [] /\ Forall (fun c => path_char c /\ c <> 47) s /\ (In 91 s <-> In 93 s).
Definition explorer_address (a : pystr) : Prop :=
  exists k h p, a = k ++ s2b "://" ++ h ++ p /\ lower_scheme k /\ host h /\ Forall path_char p /\ (p = [] \/ exists r, p = 47 :: r).
(** an endpoint: a path *)
Definition plain (e : pystr) : Prop := exists r, e = 47 :: r /\ Forall path_char r.
(** the requests an explorer is documented to understand *)
Definition asked (a e : pystr) : hrequest := mkhreq (a ++ e) (s2b "GET") [(s2b "User-Agent", s2b "Rivine-Agent")] None.
Definition posted (a e : pystr) (data : bytes) : hrequest :=
  mkhreq (a ++ e) (s2b "POST") [(s2b "User-Agent", s2b "Rivine-Agent"); (s2b "content-type", s2b "application/json")] (Some data).
(** texts of things 3Bots are looked up by: visible characters *)
Definition tidy_bot (b : botref) : Prop := match b with RName s | RStr s => Forall path_char s | RKey p => wf_bytes (Types.pk_hash p) | _ => True end.

(** The explorers tell what is true about an endpoint: of those asked for it as documented, some do not answer at all, at least one does, and those which do answer
    with the truth: a line of JSON, or that there is nothing. *)
Definition says_truth (loads : bytes -> res json) (o : outcome) (truth : res json) : Prop :=
  (exists line, o = Answered 200 line /\ loads line = truth) \/
  (truth = Err ExplorerNoContent /\ ((exists line, o = Answered 204 line) \/ exists body, o = Refused 400 body /\ (has_text "unrecognized hash" body = true \/ has_text "not found" body = true))).
Definition truthful (web : hrequest -> outcome) (loads : bytes -> res json) (addrs : list pystr) (e : pystr) (truth : res json) : Prop :=
  (exists a, In a addrs /\ ~ silent (web (asked a e))) /\ forall a, In a addrs -> silent (web (asked a e)) \/ says_truth loads (web (asked a e)) truth.
