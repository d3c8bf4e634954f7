(** The networks of the Threefold Chain, their names, fees and public explorers, as documented. *)
From Verif Require Import Base.

Inductive network := Standard | Testnet | Devnet.
(** A word written in letters of any case *)
Definition any_case (s : pystr) (word : string) : Prop := Forall2 (fun c l => c = l \/ 97 <= l <= 122 /\ c + 32 = l) s (s2b word).
Definition called (s : pystr) (n : network) : Prop :=
  match n with
  | Standard => any_case s "standard" \/ any_case s "std"
  | Testnet => any_case s "testnet"
  | Devnet => any_case s "devnet"
  end.
Definition nameless (s : pystr) : Prop := forall n, ~ called s n.
(** The number by which a network type is known *)
Definition number_of_network (n : network) : Z := match n with Standard => 0 | Testnet => 1 | Devnet => 2 end.
(** The least miner fee, in units of 10^-9 TFT *)
Definition least_fee (n : network) : N := match n with Devnet => 10 ^ 9 | _ => 10 ^ 8 end.
Definition public_explorers (n : network) : list string :=
  match n with
  | Standard => ["https://explorer.threefoldtoken.com"; "https://explorer2.threefoldtoken.com"; "https://explorer3.threefoldtoken.com"; "https://explorer4.threefoldtoken.com"]
  | Testnet => ["https://explorer.testnet.threefoldtoken.com"; "https://explorer2.testnet.threefoldtoken.com"]
  | Devnet => ["http://localhost:23110"]
  end%string.
(** The constants of a chain, as an explorer tells them: the name of the network, under "chaininfo"; it is "standard" where it is left out. *)
Inductive tells_name : json -> pystr -> Prop :=
| tells_it l l' s : jfind "chaininfo" l = Some (JObj l') -> jfind "NetworkName" l' = Some (JStr s) -> tells_name (JObj l) s
| tells_info l l' : jfind "chaininfo" l = Some (JObj l') -> jfind "NetworkName" l' = None -> tells_name (JObj l) (s2b "standard")
| tells_nothing l : jfind "chaininfo" l = None -> tells_name (JObj l) (s2b "standard").
