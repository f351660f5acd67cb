(** * What the statement that the tunnel never gets stuck speaks about *)
From Verif Require Import Base S5_Spec S5_Model Relay_Model Tun_Model Tun_Spec.

(** a step in which no callback of the relay is changed from outside *)
Definition plain (a : tact) : Prop :=
  match a with TCli (CRelay (ASet _ _ _)) | TSrv (SRelay (ASet _ _ _)) => False | _ => True end.
Definition writes (a : tact) : Prop := match a with TApp _ | TTgt _ => True | _ => False end.
(** a step of one of the two programs in which nothing fails *)
Definition calm (a : tact) : Prop := ~ fails a /\ plain a /\ ~ writes a.

(** everything that was written has arrived: what the application wrote behind the greeting
    [g] and the request [q] is at the target; the application has the answer to a complete
    greeting, and the answer to a complete request followed by all that the target wrote *)
Definition delivered (g q : list Z) (t : tun) : Prop :=
  t_tgt t = zdrop (zlen (g ++ q)) (t_app t) /\
  (zlen g <= zlen (t_app t) -> prefix [5; 0] (t_got t)) /\
  (zlen (g ++ q) <= zlen (t_app t) -> exists r, reply_ok r /\ t_got t = [5; 0] ++ r ++ t_ans t).
