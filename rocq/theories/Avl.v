(** * Avl.v -- the tree view of a level collection and the shortcut that finds the new best level (C38).

    Levels is CppCommon::BinTreeAVL<LevelNode, std::less<LevelNode>> (order_book.h:34, level.h:78): external code,
    trusted to be an AVL-balanced search tree on the price with left/right/parent pointers.  Here a tree is its
    shape with the level prices. *)
From Verif Require Import Types Book.
Open Scope Z_scope.

Inductive tree := Tip | Node (l : tree) (x : Z) (r : tree).

Definition root (t : tree) : option Z := match t with Tip => None | Node _ x _ => Some x end.

(** The node with price [p] and its left, parent and right pointers (each given by the price it points to).
    [par]: the parent of the root of [t]. *)
Record node := mkNode { n_left : option Z; n_parent : option Z; n_right : option Z }.
Fixpoint find_node (p : Z) (par : option Z) (t : tree) : option node :=
  match t with
  | Tip => None
  | Node l x r =>
      if p =? x then Some (mkNode (root l) par (root r))
      else if p <? x then find_node p (Some x) l else find_node p (Some x) r
  end.
Definition or_else {A} (a b : option A) : option A := match a with Some _ => a | None => b end.

(** The new best level computed by DeleteLevel (order_book.cpp:98-126), DeleteStopLevel (250-278) and
    DeleteTrailingStopLevel (381-409) when the best level [n] goes; null is [None]. *)
Definition shortcut (k : kind) (n : node) : option Z :=
  match k with
  | KBid => or_else (n_left n) (or_else (n_parent n) (n_right n))
  | KAsk => or_else (n_right n) (or_else (n_parent n) (n_left n))
  | KBuyStop | KTrailBuy => or_else (n_right n) (n_parent n)
  | KSellStop | KTrailSell => or_else (n_left n) (n_parent n)
  end.

(** ** Specification *)
(** Prices in increasing order. *)
Fixpoint inorder (t : tree) : list Z := match t with Tip => [] | Node l x r => inorder l ++ x :: inorder r end.
(** A search tree. *)
Fixpoint search (t : tree) : Prop :=
  match t with
  | Tip => True
  | Node l x r => search l /\ search r /\ (forall y, y ∈ inorder l -> y < x) /\ (forall y, y ∈ inorder r -> x < y)
  end.
Fixpoint height (t : tree) : Z := match t with Tip => 0 | Node l _ r => 1 + Z.max (height l) (height r) end.
(** AVL balance: the heights of the two subtrees differ by at most one, everywhere. *)
Fixpoint balanced (t : tree) : Prop :=
  match t with Tip => True | Node l _ r => balanced l /\ balanced r /\ Z.abs (height l - height r) <= 1 end.
(** Best-first order. *)
Definition best_first (k : kind) (t : tree) : list Z := if desc k then rev (inorder t) else inorder t.

(** ** Proofs *)
Lemma height_pos t : 0 <= height t.
Proof. induction t as [|l IHl x r IHr]; cbn; lia. Qed.
Lemma height_0 t : height t <= 0 -> t = Tip.
Proof. destruct t as [|l x r]; [done|]. cbn. pose proof (height_pos l). pose proof (height_pos r). lia. Qed.
Lemma height_1 t : height t <= 1 -> t = Tip \/ exists x, t = Node Tip x Tip.
Proof.
  destruct t as [|l x r]; [by left|]. cbn. intros H. right. exists x.
  rewrite (height_0 l), (height_0 r) by lia. done.
Qed.

(** The largest price: what the 'left, else parent' rule finds is the predecessor. *)
Lemma shortcut_max t par x rest :
  search t -> balanced t -> rev (inorder t) = x :: rest ->
  exists n, find_node x par t = Some n /\ n_right n = None /\
    (or_else (n_left n) (n_parent n)) = match rest with [] => par | y :: _ => Some y end.
Proof.
  revert par x rest. induction t as [|l IHl a r IHr]; intros par x rest Hs Hb E; [done|].
  cbn [search balanced] in *. destruct Hs as (Hl & Hr & Hla & Har), Hb as (Bl & Br & Hd).
  cbn [inorder find_node] in *. rewrite rev_app_distr in E. cbn [rev] in E.
  destruct (rev (inorder r)) as [|y ys] eqn:Er.
  - (* the root is the maximum *)
    assert (r = Tip) as ->.
    { destruct r as [|rl rx rr]; [done|]. cbn in Er. rewrite rev_app_distr in Er. cbn in Er.
      exfalso. destruct (rev (inorder rr)); discriminate. }
    cbn [app] in E. injection E as <- E. rewrite Z.eqb_refl. eexists; split; [reflexivity|]. split; [done|]. cbn [n_left n_parent].
    cbn [height] in Hd. pose proof (height_pos l).
    destruct (height_1 l) as [->|[z ->]]; [lia|cbn in E; by subst rest|cbn in E; by subst rest].
  - cbn [app] in E. injection E as <- E.
    assert (Hy : y ∈ inorder r) by (apply elem_of_list_In, in_rev, elem_of_list_In; rewrite Er; left).
    pose proof (Har _ Hy). rewrite (proj2 (Z.eqb_neq y a)), (proj2 (Z.ltb_ge y a)) by lia.
    destruct (IHr (Some a) y ys Hr Br eq_refl) as (n & Hn & Hnr & Hn2). exists n. split; [done|]. split; [done|].
    rewrite Hn2. destruct ys; cbn in E; by subst rest.
Qed.
(** Dually for the smallest price. *)
Lemma shortcut_min t par x rest :
  search t -> balanced t -> inorder t = x :: rest ->
  exists n, find_node x par t = Some n /\ n_left n = None /\
    (or_else (n_right n) (n_parent n)) = match rest with [] => par | y :: _ => Some y end.
Proof.
  revert par x rest. induction t as [|l IHl a r IHr]; intros par x rest Hs Hb E; [done|].
  cbn [search balanced] in *. destruct Hs as (Hl & Hr & Hla & Har), Hb as (Bl & Br & Hd).
  cbn [inorder find_node] in *.
  destruct (inorder l) as [|y ys] eqn:El.
  - assert (l = Tip) as -> by (destruct l as [|ll lx lr]; [done|cbn in El; by destruct (inorder ll)]).
    cbn [app] in E. injection E as <- E. rewrite Z.eqb_refl. eexists; split; [reflexivity|]. split; [done|]. cbn [n_right n_parent].
    cbn [height] in Hd. pose proof (height_pos r).
    destruct (height_1 r) as [->|[z ->]]; [lia|cbn in E; by subst rest|cbn in E; by subst rest].
  - cbn [app] in E. injection E as <- E.
    assert (Hy : y < a) by (apply Hla; left).
    rewrite (proj2 (Z.eqb_neq y a)), (proj2 (Z.ltb_lt y a)) by lia.
    destruct (IHl (Some a) y ys Hl Bl eq_refl) as (n & Hn & Hnr & Hn2). exists n. split; [done|]. split; [done|].
    rewrite Hn2. destruct ys; cbn in E; by subst rest.
Qed.

(** C38: in every AVL-balanced search tree whose best price is [x], the shortcut at the node of [x] yields the next
    best price, and null if there is none. *)
Theorem C38_shortcut k t x rest :
  search t -> balanced t -> best_first k t = x :: rest ->
  exists n, find_node x None t = Some n /\ shortcut k n = List.hd_error rest.
Proof.
  unfold best_first. intros Hs Hb E. destruct (desc k) eqn:Ek.
  - destruct (shortcut_max t None x rest Hs Hb E) as (n & Hn & Hr & Hn2). exists n. split; [done|].
    assert (Hd : List.hd_error rest = match rest with [] => None | y :: _ => Some y end) by done. rewrite Hd, <- Hn2.
    destruct k; cbn in Ek; try done; cbn [shortcut]. rewrite Hr. destruct (n_left n), (n_parent n); done.
  - destruct (shortcut_min t None x rest Hs Hb E) as (n & Hn & Hr & Hn2). exists n. split; [done|].
    assert (Hd : List.hd_error rest = match rest with [] => None | y :: _ => Some y end) by done. rewrite Hd, <- Hn2.
    destruct k; cbn in Ek; try done; cbn [shortcut]. rewrite Hr. destruct (n_right n), (n_parent n); done.
Qed.
(** This is what the model of the level collections uses (Book.v: side_del_level). *)
Theorem C38_next_level k t x ls :
  search t -> balanced t -> map l_price ls = best_first k t -> List.hd_error (map l_price ls) = Some x ->
  exists n, find_node x None t = Some n /\ shortcut k n = next_level x ls.
Proof.
  intros Hs Hb E Hx. destruct ls as [|l ls]; [done|]. cbn in Hx. injection Hx as <-.
  cbn [map] in E. symmetry in E. destruct (C38_shortcut k t (l_price l) _ Hs Hb E) as (n & Hn & Hsc).
  exists n. split; [done|]. rewrite Hsc. unfold next_level. cbn [from_level]. rewrite Z.eqb_refl. by destruct ls.
Qed.
(** A tree of seven levels, and one where the best level has a child. *)
Definition seven : tree := Node (Node (Node Tip 1 Tip) 2 (Node Tip 3 Tip)) 4 (Node (Node Tip 5 Tip) 6 Tip).
Example C38_example :
  search seven /\ balanced seven /\ best_first KBid seven = [6; 5; 4; 3; 2; 1] /\ best_first KAsk seven = [1; 2; 3; 4; 5; 6] /\
  (shortcut KBid <$> find_node 6 None seven) = Some (Some 5) /\ (shortcut KAsk <$> find_node 1 None seven) = Some (Some 2) /\
  (shortcut KBid <$> find_node 6 None (Node Tip 6 Tip)) = Some None.
Proof.
  split; [|split; [cbn; lia|by vm_compute]].
  cbn. repeat split; try done; intros y Hy; repeat (apply elem_of_cons in Hy as [->|Hy]; [lia|]); by apply elem_of_nil in Hy.
Qed.
(** Balance is needed: in an unbalanced search tree the rule goes wrong. *)
Example C38_unbalanced :
  let t := Node (Node Tip 1 (Node Tip 2 Tip)) 3 Tip in
  search t /\ best_first KBid t = [3; 2; 1] /\ (shortcut KBid <$> find_node 3 None t) = Some (Some 1).
Proof.
  split; [|by vm_compute].
  cbn. repeat split; try done; intros y Hy; repeat (apply elem_of_cons in Hy as [->|Hy]; [lia|]); by apply elem_of_nil in Hy.
Qed.
