(** Model of a process that crashes and is started again (main.go, pkg/operator,
    pkg/controller/declarative.go:49-160): the pipelines, queues and views are in memory and
    are lost, the objects in Kubernetes stay.  When it comes up again, everything is made
    anew, and each source sends the objects that are there as additions
    (NetModel.NStart). *)
From Verif Require Export NetModel.

Section life.
Context {FF : FloatFmt}.
Variable P : jobj -> bool.
Variable sortv : list json -> list json.
Variable hash : string -> string.
Variable has_status unconditional : gvk -> bool.
Variable lister : store -> list jobj.

(** The controllers with the objects of others and the views, and the cluster that has the
    targets which are native objects.  The cluster is not read by the controllers: native
    targets that are sources of other controllers count as objects of others. *)
Record site := Site { at_net : net P; at_cluster : cluster }.
Inductive lact :=
  | LDo (a : nact)          (* a step as in NetModel *)
  | LCrash (c : cluster).   (* the process dies and is started again; now the cluster is [c] *)
(** A crash may come at any time, also in the middle of a write, and others may change the
    cluster before the process is back: so [c] is anything.  For native targets a write is
    carried out on the cluster (target.go:90-177), whose cache then catches up; a write
    that fails is no step of the model. *)
Definition l_step (o : nat -> order) (ps : list (pipe P)) (w : site) (a : lact) : option site :=
  match a with
  | LDo a =>
      s ← net_step P sortv hash lister o (at_net w) a;
      match a with
      | NWrite k =>
          n ← t_nodes P (at_net w) !! k;
          d ← head (n_pending P n);
          let x := p_target P (n_pipe P n) in
          if is_view_kind x then Some (Site s (at_cluster w))
          else match target_write hash has_status unconditional Updater x (at_cluster w) [] d None with
               | (c, None) => Some (Site s (synced c))
               | _ => None
               end
      | _ => Some (Site s (at_cluster w))
      end
  | LCrash c => Some (Site (Net P (t_outer P (at_net w)) ∅ (map (node0 P) ps)) c)
  end.
Fixpoint l_run (o : nat -> order) (ps : list (pipe P)) (w : site) (l : list lact) : option site :=
  match l with [] => Some w | a :: l => w1 ← l_step o ps w a; l_run o ps w1 l end.
End life.
