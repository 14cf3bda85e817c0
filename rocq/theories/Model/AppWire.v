(** How the application puts the bank module together: the module accounts and their permissions
    (app/modules.go 70-86), the addresses that may not receive (app/app.go 422-445) and the bank
    keeper built with them (app/keepers/keepers.go 195-216).

    Simplifications: module names are the text constants of the SDK, IBC, OPinit, block-sdk and
    connect modules; module addresses (a hash of the name) and the send restriction appended for
    forwarding accounts (keepers.go 346) are parameters. *)
From Verif.Base Require Import Prelude Hex.
From Verif.Model Require Import Token Bank BankDelegate.
Open Scope Z_scope.

(** modules.go 71-86 *)
Definition macc_perms : list (text * list perm) :=
  [ (txt "fee_collector", []); (txt "interchainaccounts", []); (txt "feeibc", []);
    (txt "transfer", [PMinter; PBurner]); (txt "auction", []); (txt "opchild", [PMinter; PBurner]);
    (txt "oracle", []); (txt "minter", [PMinter]) ].
(** The account keeper's table (NewAccountKeeper with maccPerms). *)
Definition app_modules (addr : text → bytes) : gmap text (bytes * list perm) :=
  list_to_map (map (fun e => (fst e, (addr (fst e), snd e))) macc_perms).
(** app.go 422-445: every module account, none removed. *)
Definition app_blocked (addr : text → bytes) (a : bytes) : bool :=
  existsb (fun e => bool_decide (a = addr (fst e))) macc_perms.
Definition app_env (addr : text → bytes) (factory : bytes) (create : N → bytes) : env := Env factory create (app_blocked addr).
(** keepers.go 205-216, community_pool.go: fees and burnt foreign tokens go to the fee collector. *)
Definition app_bank (addr : text → bytes) (E : env) (call : caller) (restr : option restriction) (mint_restr : list coin → bool) (authority : text) : bank_env :=
  BankEnv E call restr mint_restr (app_modules addr) (txt "fee_collector") authority.

(** What modules and messages ask of the bank keeper. *)
Inductive bank_op :=
| BMsgSend (p : bank_params) (from to : option bytes) (l : list coin)
| BSend (from to : bytes) (l : list coin)
| BToModule (from : bytes) (m : text) (l : list coin)
| BFromModule (m : text) (to : bytes) (l : list coin)
| BModules (m1 m2 : text) (l : list coin)
| BDelegate (from : bytes) (m : text) (l : list coin)
| BUndelegate (m : text) (to : bytes) (l : list coin)
| BMint (m : text) (l : list coin)
| BBurn (m : text) (l : list coin).
Definition do_bank (B : bank_env) (w : world) (o : bank_op) : res :=
  match o with
  | BMsgSend p from to l => msg_send B p w from to l
  | BSend from to l => b_send_coins B w from to l
  | BToModule from m l => b_send_to_module B w from m l
  | BFromModule m to l => b_send_from_module B w m to l
  | BModules m1 m2 l => b_module_to_module B w m1 m2 l
  | BDelegate from m l => b_delegate B w from m l
  | BUndelegate m to l => b_undelegate B w m to l
  | BMint m l => b_mint_coins B w m l
  | BBurn m l => b_burn_coins B w m l
  end.
