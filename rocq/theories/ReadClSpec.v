(** What is lost of a cluster: elements whose block cannot be read. *)
From Verif Require Import Base Life LifeSpec ReadCl.

Inductive lost (kd : Z -> kind) (readable : Z -> bool) (h : heap) (b : Z) : Prop :=
| lost_simple : kd b = KSimple -> readable b = false -> lost kd readable h b
| lost_group pr g l : kd b = KGroup -> kids_of h b = pr ++ g :: l -> Forall (fun c => kd c <> KBlock) pr -> kd g = KBlock -> readable g = false ->
    lost kd readable h b.
