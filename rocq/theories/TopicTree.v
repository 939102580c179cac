(** Model of mercurio-server/src/topic_tree.rs.

    A node's broadcast channel is modelled by the log of all values ever sent to
    it; a receiver is a position in that log (Channel.v adds the capacity of 16
    and lagging). [send] on a channel without receivers fails in tokio and the
    error is ignored (lines 97, 101, 121); appending to the log is
    indistinguishable, because a receiver only sees what is sent after it
    subscribed. Here [subscribe] and [publish] are atomic. The [RwLock] makes [subscribe] so; publishers share
    it, so that their sends interleave: Conc.v treats each send as a step. *)
From Verif Require Import Base Codec Maps Topic.

Section Tree.
  Context {T : Type}.

  (** topic_tree.rs 9-13: [children] is a HashMap, here an association list. *)
  Inductive node := Node (log : list T) (children : list (bytes * node)).
  Definition log_of (n : node) := let '(Node l _) := n in l.
  Definition children_of (n : node) := let '(Node _ c) := n in c.
  Definition child (k : bytes) (n : node) : option node := aget bytes_eqb k (children_of n).

  (** topic_tree.rs 15-25 and 50-58 *)
  Definition new_node : node := Node [] [].

  (** topic_tree.rs 64-76: walk down the levels creating missing nodes. *)
  Fixpoint tree_subscribe (ls : list bytes) (n : node) : node :=
    match ls with
    | [] => n
    | l :: ls =>
        let c := match child l n with Some c => c | None => new_node end in
        Node (log_of n) (aput bytes_eqb l (tree_subscribe ls c) (children_of n))
    end.

  (** The node a path leads to; its log. A node reference is modelled by its path:
      nodes are never removed and [publish] does not change the tree structure. *)
  Fixpoint node_at (p : list bytes) (n : node) : option node :=
    match p with
    | [] => Some n
    | l :: p => match child l n with Some c => node_at p c | None => None end
    end.
  Definition log_at (p : list bytes) (n : node) : list T :=
    match node_at p n with Some m => log_of m | None => [] end.

  (** [node.channel.send(value)] on the node at path [p]. *)
  Fixpoint send_at (p : list bytes) (v : T) (n : node) : node :=
    match p with
    | [] => Node (log_of n ++ [v]) (children_of n)
    | l :: p =>
        match child l n with
        | Some c => Node (log_of n) (aput bytes_eqb l (send_at p v c) (children_of n))
        | None => n
        end
    end.

  (** topic_tree.rs 94-123: the loop over the explicit stack. An entry is a node
      with its path and depth; the result lists the paths sent to, in order.
      [None] means an index out of bounds at line 106 or running out of fuel;
      TreeFacts.v proves that neither happens. *)
  Fixpoint pub_loop (fuel : nat) (ls : list bytes)
      (stack : list (list bytes * node * nat)) (out : list (list bytes))
    : option (list (list bytes)) :=
    match stack with
    | [] => Some out
    | (p, n, depth) :: stack =>
        match fuel with
        | O => None
        | S fuel =>
            if Nat.eqb depth (length ls) then
              let out := out ++ [p] in
              let out := if is_some (child str_hash n) then out ++ [p ++ [str_hash]] else out in
              pub_loop fuel ls stack out
            else
              match nth_error ls depth with
              | None => None
              | Some level =>
                  let stack := match child level n with
                               | Some c => (p ++ [level], c, S depth) :: stack
                               | None => stack
                               end in
                  let stack := match child str_plus n with
                               | Some c => (p ++ [str_plus], c, S depth) :: stack
                               | None => stack
                               end in
                  let out := if is_some (child str_hash n) then out ++ [p ++ [str_hash]] else out in
                  pub_loop fuel ls stack out
              end
        end
    end.

  (** Number of loop iterations, used as fuel. *)
  Fixpoint visits (ls : list bytes) (n : node) : nat :=
    S match ls with
      | [] => O
      | l :: ls =>
          (match child l n with Some c => visits ls c | None => O end
           + match child str_plus n with Some c => visits ls c | None => O end)%nat
      end.

  (** topic_tree.rs 82-125 *)
  Definition tree_publish (topic : bytes) (v : T) (root : node) : option node :=
    let ls := levels topic in
    match pub_loop (visits ls root) ls [([], root, O)] [] with
    | Some ps => Some (fold_left (fun n p => send_at p v n) ps root)
    | None => None
    end.

  (** Histories of a tree: [subscribe] calls (topic_tree.rs 64) and [publish] calls
      (topic_tree.rs 82) in the order of the lock. *)
  Inductive tree_op := TSub (filter : bytes) | TPub (topic : bytes) (v : T).
  Definition tree_step (n : node) (o : tree_op) : option node :=
    match o with
    | TSub f => Some (tree_subscribe (levels f) n)
    | TPub t v => tree_publish t v n
    end.
  Fixpoint tree_run (os : list tree_op) (n : node) : option node :=
    match os with
    | [] => Some n
    | o :: os => match tree_step n o with Some n => tree_run os n | None => None end
    end.
End Tree.
Arguments node : clear implicits.
Arguments tree_op : clear implicits.
