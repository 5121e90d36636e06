(** Item access in a thread other than the one that imported node.behaviors.fallback. *)
From Verif Require Import Py Odict OdictFacts Heap Model MonadFacts WF WFOps Views SpecMapping MappingProofs StorageProofs Observe TreeOps
  ObserveFacts SpecTree MappingProps Reach SpecPlace OrderProofs PlaceProofs PathTree FbCount FbSearch SpecFallback FallbackProofs.

(** fallback.py 13-18: [data.processing] is set on a threading.local in the importing thread
    only, so [self.data.processing += 1] raises AttributeError elsewhere, before the with block
    of lines 61-67 is entered.  The other behaviors have no thread-local state. *)
Fixpoint get_stack_elsewhere (all bs : list behavior) (self : nat) (k : key) : M val :=
  match bs with
  | [] => get_endpoint all self k
  | Fallback :: r => try_catch (get_stack_elsewhere all r self k) is_key_error (fun _ => raise AttributeError)
  | b :: r => get_stage (fun _ _ => raise Unspecified) b (get_stack_elsewhere all r) self k
  end.
Definition getitem_elsewhere (self : nat) (k : key) : M val :=
  let! o := load self in get_stack_elsewhere (c_behs (o_cls o)) (c_behs (o_cls o)) self k.

Lemma elsewhere_stack bs s x w k :
  wf s -> views s !! x = Some w -> forallb fb_beh bs = true -> Fallback ∉ bs -> fb_class (c_behs (w_cls w)) = true ->
  exists s', get_stack_elsewhere (c_behs (w_cls w)) bs x k s = (if nskey bs k then look k (w_ns w) else look k (w_ent w), s') /\ eqv s s' /\ wf s'.
Proof.
  intros W Hw Hb Hf Hall. destruct (nested_stack_eff (fun _ _ => raise Unspecified) bs s x w k) as (s1 & E & Q); try done; [right; by left|].
  exists s1. split; [|done]. rewrite <- E. clear E Q Hb. revert s k x W Hw. induction bs as [|b bs IH]; [done|]. intros s k x W Hw.
  assert (IH' : forall x k s', get_stack_elsewhere (c_behs (w_cls w)) bs x k s' = get_stack (fun _ _ => raise Unspecified) (c_behs (w_cls w)) bs x k s').
  { clear IH W Hw Hall. assert (Hn : Fallback ∉ bs) by set_solver. generalize (c_behs (w_cls w)). intros all. clear Hf. induction bs as [|b' bs IH]; intros x' k' s'; [done|].
    assert (IH2 : forall x k s', get_stack_elsewhere all bs x k s' = get_stack (fun _ _ => raise Unspecified) all bs x k s') by (apply IH; set_solver).
    destruct b'; simpl; try done; try (by apply IH2).
    - unfold try_catch. by rewrite IH2.
    - destruct k'; try apply IH2. destruct (reserved s0); [done|apply IH2].
    - unfold bind. destruct (load x' s') as [[o|e] s2]; [|done]. destruct (of_res _ s2) as [[k2|e] s3]; [|done]. unfold try_catch. by rewrite IH2.
    - unfold bind. destruct (cache_of x' s') as [[l|e] s2]; [|done]. unfold try_catch. destruct (dict_get l k' s2) as [[v|e] s3]; [done|]. destruct (is_key_error e); [|done]. by rewrite IH2.
    - exfalso. apply Hn. by left. }
  destruct b; simpl; try done; try (by apply IH').
  - unfold try_catch. by rewrite IH'.
  - destruct k; try apply IH'. destruct (reserved s0); [done|apply IH'].
  - unfold bind. destruct (load x s) as [[o|e] s2]; [|done]. destruct (of_res _ s2) as [[k2|e] s3]; [|done]. unfold try_catch. by rewrite IH'.
  - unfold bind. destruct (cache_of x s) as [[l|e] s2]; [|done]. unfold try_catch. destruct (dict_get l k s2) as [[v|e] s3]; [done|]. destruct (is_key_error e); [|done]. by rewrite IH'.
  - exfalso. apply Hf. by left.
Qed.
Lemma elsewhere_pass all pre rest x k s : forallb fb_beh pre = true -> Fallback ∉ pre -> ~ (Nodespaces ∈ pre /\ dunder k) ->
  get_stack_elsewhere all (pre ++ rest) x k s = get_stack_elsewhere all rest x k s.
Proof.
  intros Hb Hf Hn. induction pre as [|b pre IH]; [done|]. simpl in *. apply andb_prop in Hb as [Hb1 Hb2].
  assert (IH' : get_stack_elsewhere all (pre ++ rest) x k s = get_stack_elsewhere all rest x k s) by (apply IH; [done|set_solver|]; intros [A B]; apply Hn; split; [by right|done]).
  destruct b; try discriminate Hb1; simpl; try exact IH'.
  - destruct k as [t| | |]; try exact IH'. destruct (reserved t) eqn:Er; [|exact IH']. exfalso. apply Hn. split; [by left|]. by apply dunder_reserved.
  - exfalso. apply Hf. by left.
Qed.
Lemma elsewhere_attribute_error s x cls k : fallback_tree s -> class_of s x = Some cls -> searches cls k -> hashable k = true -> lacks s x k ->
  exists s', getitem_elsewhere x k s = (Exc AttributeError, s') /\ same_world s s'.
Proof.
  intros T Hc (pre & post & Eb & H1 & H2 & H3) Hh Hl. assert (Hx : live s x). { unfold class_of in Hc. destruct (nodes s !! x) eqn:E; [|done]. by eexists. }
  pose proof Hx as Hx'. apply views_live in Hx' as [w Hw]. destruct (view_obj _ _ _ Hw) as (o & Hob & Ew).
  assert (Hcw : class_of s x = Some (w_cls w)) by (rewrite ob_class; unfold fld; by rewrite Hw). assert (cls = w_cls w) as -> by congruence.
  pose proof (ft_classes _ T x _ Hc) as Hf. unfold getitem_elsewhere. rewrite (bind_load _ _ _ _ Hob). replace (o_cls o) with (w_cls w) by (by subst).
  assert (Hbs : forallb fb_beh pre = true /\ forallb fb_beh post = true).
  { pose proof Hf as Hf'. apply andb_prop in Hf' as [Hf' _]. rewrite Eb, forallb_app in Hf'. simpl in Hf'. by apply andb_prop in Hf' as [? Hf']. }
  destruct Hbs as [Hb1 Hb2].
  assert (Eg : get_stack_elsewhere (c_behs (w_cls w)) (c_behs (w_cls w)) x k s = get_stack_elsewhere (c_behs (w_cls w)) (pre ++ Fallback :: post) x k s) by (by rewrite <- Eb).
  rewrite Eg, elsewhere_pass by done. clear Eg. simpl.
  assert (Hns : (if nskey post k then look k (w_ns w) else look k (w_ent w)) = get_res w k).
  { unfold get_res. assert (nskey post k = nskey (c_behs (w_cls w)) k) as ->; [|done]. apply eq_true_iff_eq. rewrite !nskey_dunder, Eb, elem_of_app, elem_of_cons. naive_solver. }
  assert (Hit : get_res w k = Exc (KeyError k)). { pose proof (item_lacks s T x k Hx Hh Hl) as Hi. unfold item in Hi. by rewrite Hw in Hi. }
  destruct (elsewhere_stack post s x w k) as (s1 & E & Q & W1); try done; [by apply T_wf|].
  rewrite Hns, Hit in E. unfold try_catch. rewrite E. simpl. exists s1. split; [done|]. by apply same_world_eqv.
Qed.
