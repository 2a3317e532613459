(** Vocabulary of the C35-C37 statements about the gateway. *)
From Verif Require Import Base Text RouterTypes GatewayModel.

Definition gwrun (c : gwconfig) (ops : list gwop) : gwstate := run gateway_step (gateway_init c) ops.
Definition gwlog (c : gwconfig) (ops : list gwop) : list (gwop * gwout) := log gateway_step (gateway_init c) ops.

(** The verifier's answer says that this message is verified: the last entry
    for its id, if there are several, is [true]. *)
Definition reported (r : list (ccid * bool)) (m : message) : bool :=
  match last (omap (fun x => if bool_decide (x.1 = m_cc m) then Some x.2 else None) r) with
  | Some b => b
  | None => false
  end.

(** The last message the router stored under an id. *)
Definition last_stored (router : addr) (l : list (gwop * gwout)) (id : ccid) : option message :=
  last (filter (fun m => m_cc m = id)
         (l ≫= fun e => match e.1 with
                        | GwRouteMessages a ms _ => if bool_decide (a = router) then ms else []
                        | _ => []
                        end)).

(** No id occurs twice. *)
Definition distinct_ids (msgs : list message) : Prop := NoDup (m_cc <$> msgs).
