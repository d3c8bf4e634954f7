(** Model of the requests made over HTTP: /repo/tfchain/internal/HttpClient.py:75-118, 162-213 (with the parts of Python's urllib it uses) and
    /repo/tfchain/TFChainExplorerClient.py:28-102.  What urlopen and the network make of a request is a parameter. *)
From Verif Require Import Base Encoders Currency Primitive Types Conditions Fulfillments ThreeBotTypes Txn TxnJson Wallet Explorer Lookups.

(** [s.split(c, 1)] if [c] occurs in [s]; Python builtin, used by urllib.parse for HttpClient.py:166 *)
Fixpoint cut (c : N) (s : pystr) : option (pystr * pystr) :=
  match s with
  | [] => None
  | x :: s => if x =? c then Some ([], s) else match cut c s with Some (a, b) => Some (x :: a, b) | None => None end
  end.
(** the longest prefix without such characters, and the rest; Python builtin, used by urllib.parse for HttpClient.py:166 *)
Fixpoint span (stop : N -> bool) (s : pystr) : pystr * pystr :=
  match s with
  | [] => ([], [])
  | x :: t => if stop x then ([], s) else let (a, b) := span stop t in (x :: a, b)
  end.
(** urllib.parse, used at HttpClient.py:166, 176: the parts of a URL *)
Record url_parts := mkparts { u_scheme : pystr; u_netloc : pystr; u_path : pystr; u_params : pystr; u_query : pystr; u_fragment : pystr }.
(** urllib.parse.scheme_chars, used at HttpClient.py:166 *)
Definition scheme_char (c : N) : bool :=
  (97 <=? c) && (c <=? 122) || (65 <=? c) && (c <=? 90) || (48 <=? c) && (c <=? 57) || (c =? 43) || (c =? 45) || (c =? 46).
(** urllib.parse.urlsplit, used at HttpClient.py:166: the scheme.  (Until Python 3.9, what follows the colon must not consist of digits only, which it does not
    for an endpoint of an explorer; from Python 3.10 the scheme must begin with a letter.) *)
Definition split_scheme (s : pystr) : pystr * pystr :=
  match cut 58 s with
  | Some (a :: l, rest) => if forallb scheme_char (a :: l) then (lower (a :: l), rest) else ([], s)
  | _ => ([], s)
  end.
(** urllib.parse.uses_params, used at HttpClient.py:166 *)
Definition uses_params : list pystr :=
  map s2b [""; "ftp"; "hdl"; "prospero"; "http"; "https"; "shttp"; "rtsp"; "rtspu"; "sip"; "sips"; "mms"; "sftp"; "tel"]%string.
(** urllib.parse.uses_netloc, used at HttpClient.py:176 *)
Definition uses_netloc : list pystr :=
  map s2b [""; "ftp"; "http"; "gopher"; "nntp"; "telnet"; "imap"; "wais"; "file"; "mms"; "https"; "shttp"; "snews"; "prospero"; "rtsp"; "rtspu"; "rsync"; "svn"; "svn+ssh"; "sftp"; "nfs"; "git"; "git+ssh"; "ws"; "wss"]%string.
(** membership in a list of names; Python builtin, used by urllib.parse for HttpClient.py:166, 176 *)
Definition named (l : list pystr) (s : pystr) : bool := existsb (listN_eqb s) l.
(** urllib.parse._splitparams, used at HttpClient.py:166: the parameters are in the last segment of the path *)
Definition split_params (s : pystr) : pystr * pystr :=
  let (last, before) := span (fun c => c =? 47) (rev s) in
  match cut 59 (rev last) with Some (a, p) => (rev before ++ a, p) | None => (s, []) end.
(** urllib.parse.urlparse, used at HttpClient.py:166.  Not modelled: that newer versions of Python drop control characters first, and refuse host names which
    mean something else when normalised. *)
Definition urlparse (s : pystr) : res url_parts :=
  let (scheme, s) := split_scheme s in
  let (netloc, s) := match s with 47 :: 47 :: r => span (fun c => (c =? 47) || (c =? 63) || (c =? 35)) r | _ => ([], s) end in
  do _ <- guard (Bool.eqb (existsb (N.eqb 91) netloc) (existsb (N.eqb 93) netloc)) ValueError;
  let (s, fragment) := match cut 35 s with Some x => x | None => (s, []) end in
  let (s, query) := match cut 63 s with Some x => x | None => (s, []) end in
  let (s, params) := if named uses_params scheme && existsb (N.eqb 59) s then split_params s else (s, []) in
  Ok (mkparts scheme netloc s params query fragment).
(** urllib.parse.urlunparse, used at HttpClient.py:176 *)
Definition urlunparse (u : url_parts) : pystr :=
  let s := match u_params u with [] => u_path u | p => u_path u ++ 59 :: p end in
  let s :=
    if negb (length (u_netloc u) =? 0)%nat || negb (length (u_scheme u) =? 0)%nat && named uses_netloc (u_scheme u) && negb (match s with 47 :: 47 :: _ => true | _ => false end)
    then 47 :: 47 :: u_netloc u ++ match s with [] => [] | 47 :: _ => s | _ => 47 :: s end
    else s in
  let s := match u_scheme u with [] => s | c => c ++ 58 :: s end in
  let s := match u_query u with [] => s | q => s ++ 63 :: q end in
  match u_fragment u with [] => s | f => s ++ 35 :: f end.

(** HttpClient.py:178-213: a request as given to urlopen *)
Record hrequest := mkhreq { hr_url : pystr; hr_method : pystr; hr_headers : list (pystr * pystr); hr_data : option bytes }.

Section Http.
(** [urlencode] of what [parse_qs] makes of a query that is not empty, the last value of each name *)
Variable requery : pystr -> pystr.
(** HttpClient.py:162-176, without further parameters *)
Definition update_url (s : pystr) : res pystr :=
  do u <- urlparse s;
  Ok (urlunparse (mkparts (u_scheme u) (u_netloc u) (u_path u) (u_params u) (match u_query u with [] => [] | q => requery q end) (u_fragment u))).
(** HttpClient.py:178-203.  Request raises a ValueError for a URL without a kind. *)
Definition http_request (s : pystr) (data : option bytes) (headers : list (pystr * pystr)) (method : pystr) : res hrequest :=
  do u <- update_url s;
  do _ <- guard (match cut 58 u with Some (_ :: _, _) => true | _ => false end) ValueError;
  Ok (mkhreq u method headers (match data with Some (_ :: _) => data | _ => None end)).
(** HttpClient.py:75-82, 228-230, TFChainExplorerClient.py:44-46 *)
Definition get_request (address endpoint : pystr) : res hrequest :=
  http_request (address ++ endpoint) None [(s2b "User-Agent", s2b "Rivine-Agent")] (s2b "GET").
(** HttpClient.py:107-118, 232-234, TFChainExplorerClient.py:80-93 *)
Definition post_request (address endpoint : pystr) (data : bytes) : res hrequest :=
  http_request (address ++ endpoint) (Some data) [(s2b "User-Agent", s2b "Rivine-Agent"); (s2b "content-type", s2b "application/json")] (s2b "POST").

(** what becomes of a request, from urlopen to the first line of the answer (HttpClient.py:204-213) *)
Variable web : hrequest -> outcome.
(** HttpClient.py:192-213 *)
Definition send (r : res hrequest) : outcome := match r with Ok q => web q | Err e => Raised e end.
(** TFChainExplorerClient.py:28-62 *)
Definition web_get (addrs : list (option pystr)) (endpoint : pystr) (order : list nat) : list nat * res bytes :=
  explorer_get addrs (fun i => match nth_error addrs i with Some (Some a) => send (get_request a endpoint) | _ => Raised TypeError end) order.
(** TFChainExplorerClient.py:64-102 *)
Definition web_post (dumps : json -> pystr) (addrs : list (option pystr)) (endpoint : pystr) (d : pdata) (order : list nat) : list nat * res bytes :=
  explorer_post dumps addrs d
    (fun i => match nth_error addrs i, post_data dumps d with Some (Some a), Ok b => send (post_request a endpoint b) | _, _ => Raised TypeError end) order.
(** TFChainClient.py:150-151, 174-175, 224-225, 269-270, 342-343, 714-715, 764-765, 811-812: the answer as JSON.  [loads]: json_loads of a line; [order]: how the
    explorers are shuffled for this request. *)
Definition web_json (loads : bytes -> res json) (addrs : list (option pystr)) (order : pystr -> list nat) (endpoint : pystr) : res json :=
  do line <- snd (web_get addrs endpoint (order endpoint)); loads line.
(** TFChainClient.py:237-252, 426-431: [transaction_put], with who was asked *)
Definition web_put (dumps : json -> pystr) (loads : bytes -> res json) (addrs : list (option pystr)) (d : pdata) (order : list nat) : list nat * res pystr :=
  let (asked, r) := web_post dumps addrs (s2b "/transactionpool/transactions") d order in
  (asked, do line <- r; do resp <- loads line; transaction_put resp).
End Http.
