(** * Spec24.v -- the market manager example seen from outside (definitions only, no proofs). *)
From Coq Require Import String.
From stdpp Require Import fin_maps.
From Verif Require Import Types Book Engine Manager Print Itch ItchSpec Feed Spec Spec10 Spec11 Spec19.
Open Scope Z_scope. Open Scope list_scope.

(** [t] is a text the program writes on its way to the state [s]: a line for each notification, in their order ([wr] writes a symbol name). *)
Definition writes (wr : Z -> string) (s : state) (t : string) : Prop :=
  exists ns, map fst ns = st_log s /\ Forall about ns /\ t = stdout wr ns.
(** [input bh blocks ms]: the blocks are a stream of ITCH packets, cut anywhere and with an unfinished packet at the end, which says the
    feed messages [ms] about stocks and orders. *)
Definition input (blocks : list (list Z)) (ms : list Feed.feed) : Prop :=
  exists ks tail, Forall (Forall is_byte) blocks /\ Forall packet_ok ks /\ incomplete tail /\ concat blocks = stream (map on_wire ks) ++ tail /\
  Spec11.says ks ms /\ carries_all [] ∅ ms.
