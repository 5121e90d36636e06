(** Symbolic execution lemmas for the monad. *)
From Verif Require Import Py Odict Aliaser Heap.

Lemma bind_Ret {A B} (m : M A) (f : A -> M B) s a s' :
  m s = (Ret a, s') -> bind m f s = f a s'.
Proof. unfold bind. intros ->. done. Qed.
Lemma bind_Exc {A B} (m : M A) (f : A -> M B) s e s' :
  m s = (Exc e, s') -> bind m f s = (Exc e, s').
Proof. unfold bind. intros ->. done. Qed.
Lemma bind_ret {A B} (a : A) (f : A -> M B) s : bind (ret a) f s = f a s.
Proof. done. Qed.
Lemma bind_raise {A B} e (f : A -> M B) s : bind (raise e) f s = (Exc e, s).
Proof. done. Qed.
Lemma bind_assoc {A B C} (m : M A) (f : A -> M B) (g : B -> M C) s :
  bind (bind m f) g s = bind m (fun x => bind (f x) g) s.
Proof. unfold bind. destruct (m s) as [[a|e] s']; done. Qed.
Lemma load_Some o s x : nodes s !! o = Some x -> load o s = (Ret x, s).
Proof. unfold load. intros ->. done. Qed.
Lemma bind_load {B} o s x (f : obj -> M B) :
  nodes s !! o = Some x -> bind (load o) f s = f x s.
Proof. intros H. unfold bind, load. by rewrite H. Qed.
Lemma modify_Some o f s x :
  nodes s !! o = Some x -> modify o f s = (Ret tt, set_nodes <[o := f x]> s).
Proof. unfold modify. intros ->. done. Qed.
Lemma bind_modify {B} o f s x (g : unit -> M B) :
  nodes s !! o = Some x -> bind (modify o f) g s = g tt (set_nodes <[o := f x]> s).
Proof. intros H. unfold bind, modify. by rewrite H. Qed.
Lemma read_dict_Some l s d : dicts s !! l = Some d -> read_dict l s = (Ret d, s).
Proof. unfold read_dict. intros ->. done. Qed.
Lemma bind_read_dict {B} l s d (f : _ -> M B) :
  dicts s !! l = Some d -> bind (read_dict l) f s = f d s.
Proof. intros H. unfold bind, read_dict. by rewrite H. Qed.
Lemma bind_read_idx {B} l s d (f : _ -> M B) :
  idxs s !! l = Some d -> bind (read_idx l) f s = f d s.
Proof. intros H. unfold bind, read_idx. by rewrite H. Qed.

Lemma try_catch_Ret {A} (m : M A) p h s a s' :
  m s = (Ret a, s') -> try_catch m p h s = (Ret a, s').
Proof. unfold try_catch. intros ->. done. Qed.
Lemma try_catch_Exc {A} (m : M A) p h s e s' :
  m s = (Exc e, s') -> try_catch m p h s = if p e then h e s' else (Exc e, s').
Proof. unfold try_catch. intros ->. done. Qed.
