(** EVM logs in stored text form. x/evm/types/log.go. *)
From Verif.Base Require Import Prelude Hex.

Record eth_log := ELog { el_address : bytes; el_topics : list bytes; el_data : bytes }.
Record text_log := TLog { tl_address : text; tl_topics : list text; tl_data : text }.
Section logs.
Variable ck : bytes -> nat -> bool.
(** NewLog (log.go:20-31), NewLogs (log.go:11-18) *)
Definition new_log (l : eth_log) : text_log :=
  TLog (address_hex ck (el_address l)) (map hash_hex (el_topics l)) (hexutil_encode (el_data l)).
Definition new_logs (ls : list eth_log) : list text_log := map new_log ls.
(** ToEthLog (log.go:42-53), [None]: MustDecode panics; ToEthLogs (log.go:33-40) *)
Definition to_eth_log (l : text_log) : option eth_log :=
  ELog (hex_to_address (tl_address l)) (map hex_to_hash (tl_topics l)) <$> hexutil_decode (tl_data l).
Definition to_eth_logs (ls : list text_log) : option (list eth_log) := mapM to_eth_log ls.
End logs.
