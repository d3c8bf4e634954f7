(** Model of the networks and of the making of a client: /repo/tfchain/TFChainClient.py:22-144, 419-424. *)
From Verif Require Import Base Currency Explorer.

(** TFChainClient.py:22-30: a [NetworkType].  Its constructor keeps whatever value it is given: [NTValue z] is one which equals the whole number [z]
    for Python (an int, a bool, a float), [NTOdd] one which equals none. *)
Inductive nettype := NTValue (z : Z) | NTOdd.
(** TFChainClient.py:32-35: [__eq__] with one of the three constants of 75-77: neither is an [UnlockHashType], so the value is compared with the constant,
    whose own [__eq__] (the value's answers NotImplemented) compares the two values. *)
Definition nt_is (t : nettype) (z : Z) : bool := match t with NTValue v => (v =? z)%Z | NTOdd => false end.
(** TFChainClient.py:75-77 *)
Definition STANDARD : nettype := NTValue 0.
(** TFChainClient.py:75-77 *)
Definition TESTNET : nettype := NTValue 1.
(** TFChainClient.py:75-77 *)
Definition DEVNET : nettype := NTValue 2.

(** TFChainClient.py:41-50: [from_str] of a str: without a match it returns None.  [lower] only knows the letters A to Z; of the other characters only the
    Kelvin sign and the dotted capital I have lower-case forms with ASCII letters (k, i), which occur in none of the names. *)
Definition from_str (s : pystr) : option nettype :=
  let s := lower s in
  if listN_eqb s (s2b "standard") || listN_eqb s (s2b "std") then Some STANDARD
  else if listN_eqb s (s2b "testnet") then Some TESTNET
  else if listN_eqb s (s2b "devnet") then Some DEVNET
  else None.
(** TFChainClient.py:41-50: [from_str] of a JSON value *)
Definition from_json_str (j : json) : res (option nettype) := match j with JStr s => Ok (from_str s) | _ => Err TypeError end.

(** TFChainClient.py:52-55 *)
Definition nt_fee (t : nettype) : res currency := if nt_is t 2 then cset (CIStr (s2b "1.0")) else cset (CIStr (s2b "0.1")).
(** TFChainClient.py:57-73 *)
Definition nt_explorers (t : nettype) : list (option pystr) :=
  map (fun s => Some (s2b s))
    (if nt_is t 0 then
       ["https://explorer.threefoldtoken.com"; "https://explorer2.threefoldtoken.com"; "https://explorer3.threefoldtoken.com"; "https://explorer4.threefoldtoken.com"]
     else if nt_is t 1 then ["https://explorer.testnet.threefoldtoken.com"; "https://explorer2.testnet.threefoldtoken.com"]
     else ["http://localhost:23110"])%string.

(** TFChainClient.py:83-93: the arguments.  [XNone]: nothing, or something that counts as false; [XClient]: a [TFChainExplorerClient] with its addresses *)
Inductive exarg := XNone | XClient (addrs : list (option pystr)) | XOther.
(** TFChainClient.py:83-90 *)
Inductive netarg := NNone | NStr (s : pystr) | NType (t : nettype) | NOther.
(** TFChainClient.py:83-108: a client: its network, [None] if it has none, and its explorers *)
Record client := mkclient { n_network : option nettype; n_explorers : list (option pystr) }.

(** TFChainClient.py:83-108.  [answer]: what asking the explorers of the given client for /explorer/constants brings, as JSON *)
Definition tfclient_new (answer : res json) (x : exarg) (n : netarg) : res client :=
  do t <- match n with
          | NNone => Ok None
          | NStr s => Ok (from_str s)
          | NType t => Ok (Some t)
          | NOther => Err TypeError
          end;
  match x with
  | XNone =>
      let t := match t with Some t => t | None => STANDARD end in
      do addrs <- client_new (Some (nt_explorers t));
      Ok (mkclient (Some t) addrs)
  | XOther => Err TypeError
  | XClient addrs =>
      match t with
      | Some t => Ok (mkclient (Some t) addrs)
      | None =>
          do resp <- answer;
          do info <- jget_d "chaininfo" (JObj []) resp;
          do name <- jget_d "NetworkName" (JStr (s2b "standard")) info;
          do t <- from_json_str name;
          Ok (mkclient t addrs)
      end
  end.
(** TFChainClient.py:110-112 *)
Definition tf_network (c : client) : option nettype := n_network c.
(** TFChainClient.py:142-144 *)
Definition tf_fee (c : client) : res currency := match n_network c with Some t => nt_fee t | None => Err AttributeError end.
(** TFChainClient.py:135-140, TFChainExplorerClient.py:21-26 *)
Definition tf_explorers (c : client) : list (option pystr) := n_explorers c.
(** TFChainClient.py:419-424: a request of the client *)
Definition tf_get (c : client) (net : nat -> outcome) (order : list nat) : list nat * res bytes := explorer_get (n_explorers c) net order.
