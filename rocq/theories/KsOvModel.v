(** keysplit_adapter.hpp over group_chaining_table with an overflow type: the members of map_type that the adapter uses (see KsGen.v). *)
From Verif Require Export KsGen GroupOvModel.

(** group_chaining.hpp:710-1512 with overflow_t; 1279 shrink_to_fit does nothing, 1282-1284 operator[]; there is no member count. *)
Definition sub_group_ov (pf : platform) (vw : N) (fuel : nat) (c : gcfg) (kind : ovkind) : submap gotable :=
  Sub (fun kw => Ok (go_new pf kind kw vw)) (go_find pf c) (fun t k => go_find_or_insert pf c kind fuel t k 0) (go_erase pf c) (fun _ _ => Throw) go_size
    Ok (go_clear pf) (fun t => on_invalid pf (go_view pf c t)) (fun t => on_iter_at pf (go_view pf c t)) (fun t => on_value pf (go_view pf c t)) (go_write_value pf).
