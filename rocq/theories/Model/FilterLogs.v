(** eth_getFilterLogs: jsonrpc/namespaces/eth/filters/api.go 396-430, over the registered filters
    (Model/Filters.v) and the index (Model/Indexer.v). The call changes nothing: in particular it
    does not set lastUsed. *)
From Verif.Base Require Import Prelude.
From Verif.Model Require Import EthLog Indexer Filters.

Section model.
Variable bloom_bits : bytes → list N.
Variable header_hash : header → bytes.
(** api.go 396-430; [None]: errFilterNotFound. newBlockFilter and Logs as in get_logs (filter.go
    73-100), neither the topic count nor the range is checked here. *)
Definition get_filter_logs (fs : fstate) (st : istate) (head : N) (id : fid) : option lres :=
  match f_filters fs !! id with
  | Some f =>
      match fl_kind f with
      | KLogs c => Some (
          match fc_hash c with
          | Some bh =>
              if bool_decide (bh = zero_hash) then logs_range bloom_bits header_hash st head (fc_crit c) 0 0
              else match header_by_hash st bh with
                   | None => LErr
                   | Some h => lres_of (block_logs bloom_bits header_hash st (fc_crit c) h)
                   end
          | None => logs_range bloom_bits header_hash st head (fc_crit c) (default (-2)%Z (fc_from c)) (default (-2)%Z (fc_to c))
          end)
      | _ => None
      end
  | None => None
  end.
End model.
