(** What deserializing any text means, stated without the decoder. *)
From Verif Require Import Py Heap Model Serializer SerialCall.

(** The text of a node: what [NodeEncoder] writes, with arguments. *)
Definition node_text (n : string) (kw : json) (name : json) : json :=
  JObj [("__node__", JObj [("class", JStr n); ("kw", kw); ("name", name)])].
(** [n] can be imported and is no node class; calling it does [f]. *)
Definition imports (ce : callenv) (n : string) (f : callable) (s : st) : Prop :=
  classes s !! n = None /\ v_others (e_env ce) n = true /\ e_call ce n = Some f.

(** Values of JSON itself: nothing which only the encoder and decoder know. *)
Inductive json_value : val -> Prop :=
| jv_none : json_value VNone
| jv_bool b : json_value (VBool b)
| jv_int z : json_value (VInt z)
| jv_str s : json_value (VStr s)
| jv_list l : Forall json_value l -> json_value (VList l)
| jv_dict l : Forall (fun kv => json_value (snd kv)) l -> json_value (VDict l).

(** An outcome which the first model leaves open: it calls into something not
    modelled, or the model's bound on the depth is too small. *)
Definition left_open {A} (r : res A) : Prop := r = Exc Unspecified \/ r = Exc OutOfFuel.
