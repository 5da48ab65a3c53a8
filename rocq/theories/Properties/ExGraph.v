(** A checker for [allowed], and the concrete graph used to show that the hypotheses of the
    graph theorems are met. *)
From Coq Require Import NArith ZArith Bool List Lia.
From stdpp Require Import base list gmap fin_maps tactics.
From Verif.Model Require Import Types Mesh Attrs Node EdgeContainer SLayer DLayer Graph.
From Verif.Spec Require Import AbstractGraph GraphHistory GraphObs.
Local Open Scope N_scope.

Definition dyn_args_b (l : LayerId) (p : N) : bool :=
  negb (l =? UNKNOWN_LAYER) && (p <? 2 ^ 32) && (prefix_sub p =? 0).
Definition time_free_b (g : Graph) (k : LayerKey) (t : Z) : bool :=
  forallb (fun x => match node_data g (fst x) with
                    | Some (k', Some t', _) => negb (bool_decide (k' = k) && Z.eqb t' t)
                    | _ => true end) (map_to_list (g_lookup g)).
Definition prev_args_b (g : Graph) (l : LayerId) (id : N) (t : Z) : bool :=
  g_has_node g id || ((id <? 2 ^ 64) && dyn_args_b l (prefix_from_id id) && time_free_b g (key_dynamic l (prefix_from_id id)) t).
Definition no_foreign_b (g : Graph) (n : N) : bool :=
  match layer_of g n with
  | None => true
  | Some k => forallb (fun x => match g_has_edge g n (fst x) with
                                | Ok true => negb (lk_layer k =? lk_layer (snd x)) || bool_decide (snd x = k)
                                | _ => true end) (map_to_list (g_lookup g))
  end.
Definition allowed_b (g : Graph) (o : gop) : bool :=
  match o with
  | GEmplaceDyn l p _ _ _ =>
      dyn_args_b l p && match g_dlayer g l p with Some d => (dl_next d =? dl_size d) && (dl_size d <? 2 ^ 32) | None => true end
  | GEmplacePrev l id t _ => prev_args_b g l id t
  | GAddOrUpdateNode l id _ (Some t) => prev_args_b g l id t
  | GCreateDyn l p => dyn_args_b l p
  | GInsertParentEdge u v _ =>
      match layer_of g u, layer_of g v with Some ku, Some kv => negb (lk_layer ku =? lk_layer kv) | _, _ => true end
  | GRemoveNode n => no_foreign_b g n
  | GMergeNodes f t => no_foreign_b g f &&
      match layer_of g f with Some k => negb (lk_dynamic k) | None => true end
  | _ => true
  end.

Lemma dyn_args_b_ok l p : dyn_args_b l p = true -> dyn_args l p.
Proof.
  unfold dyn_args_b, dyn_args. rewrite !andb_true_iff, negb_true_iff, N.eqb_neq, N.ltb_lt, N.eqb_eq. tauto.
Qed.
Lemma layer_of_elem g x k : layer_of g x = Some k -> In (x, k) (map_to_list (g_lookup g)).
Proof. intros H. apply elem_of_list_In, elem_of_map_to_list. exact H. Qed.
Lemma prev_args_b_ok g l id t : prev_args_b g l id t = true -> prev_args g l id t.
Proof.
  unfold prev_args_b, prev_args. rewrite orb_true_iff, !andb_true_iff, N.ltb_lt. intros [H|[[H1 H2] H3]]; [auto|]. right.
  split; [assumption|]. split; [apply dyn_args_b_ok, H2|]. intros x at_ Hx.
  unfold time_free_b in H3. rewrite forallb_forall in H3.
  assert (Hk : exists k, layer_of g x = Some k) by (unfold node_data in Hx; destruct (layer_of g x); [eauto|discriminate]).
  destruct Hk as [k Hk]. specialize (H3 _ (layer_of_elem _ _ _ Hk)). cbn [fst] in H3. rewrite Hx in H3.
  rewrite bool_decide_true, Z.eqb_refl in H3 by reflexivity. discriminate.
Qed.
Lemma no_foreign_b_ok g n : no_foreign_b g n = true -> no_foreign_sibling g n.
Proof.
  unfold no_foreign_b, no_foreign_sibling. intros H v k kv Ha Hk Hkv Hl. rewrite Hk, forallb_forall in H.
  specialize (H _ (layer_of_elem _ _ _ Hkv)). cbn in H. unfold adjacent in Ha. rewrite Ha in H.
  rewrite Hl, N.eqb_refl in H. cbn in H. apply bool_decide_eq_true in H. exact H.
Qed.
Lemma allowed_b_ok g o : allowed_b g o = true -> allowed g o.
Proof.
  destruct o; cbn [allowed_b allowed]; auto.
  - rewrite andb_true_iff. intros [H1 H2]. split; [apply dyn_args_b_ok, H1|]. intros d Hd. rewrite Hd in H2.
    apply andb_true_iff in H2 as [H2 H3]. apply N.eqb_eq in H2. apply N.ltb_lt in H3. auto.
  - apply prev_args_b_ok.
  - apply dyn_args_b_ok.
  - destruct t; [apply prev_args_b_ok|auto].
  - intros H ku kv Hu Hv. rewrite Hu, Hv in H. apply negb_true_iff, N.eqb_neq in H. exact H.
  - apply no_foreign_b_ok.
  - rewrite andb_true_iff. intros [H1 H2]. split; [apply no_foreign_b_ok, H1|]. intros k Hk _ _. rewrite Hk in H2. apply negb_true_iff, H2.
Qed.

Lemma allowed_all_ok g os : forallb (allowed_b g) os = true -> Forall (allowed g) os.
Proof.
  rewrite forallb_forall. intros H. apply List.Forall_forall. intros o Ho. apply allowed_b_ok, H, Ho.
Qed.

Fixpoint run_b (g : Graph) (os : list gop) : option Graph :=
  match os with
  | [] => Some g
  | o :: r => if allowed_b g o then match g_step g o with Ok (_, g') => run_b g' r | _ => None end else None
  end.
Lemma run_b_reachable os : forall g g', reachable g -> run_b g os = Some g' -> reachable g'.
Proof.
  induction os as [|o r IH]; intros g g' Hr; cbn; [intros [= <-]; exact Hr|].
  destruct (allowed_b g o) eqn:Ea; [|discriminate]. destruct (g_step g o) as [[b g1]| |] eqn:Es; [|discriminate|discriminate].
  apply IH. eapply reach_step; [exact Hr|apply allowed_b_ok, Ea|exact Es].
Qed.

(** Places 10, 11, 12 (layer 3), rooms 20, 21 (layer 4), agent poses (layer 2, prefix 'a') at
    times 1, 2, 3; chain 10 - 11 - 12, room 20 above 10 and 11, room 21 above 12, the second
    agent pose linked to place 10. *)
Definition pfx_a : N := prefix_of_key 97.
Definition agent (i : N) : N := prefix_make_id pfx_a i.
Definition ex_ops : list gop :=
  [ GEmplace PLACES 10 (base_at 0 0 0); GEmplace PLACES 11 (base_at 1 0 0); GEmplace PLACES 12 (base_at 2 0 0);
    GEmplace ROOMS 20 (base_at 0 1 0); GEmplace ROOMS 21 (base_at 2 1 0);
    GEmplaceDyn AGENTS pfx_a 1 (base_at 0 0 1) true; GEmplaceDyn AGENTS pfx_a 2 (base_at 0 0 2) true;
    GEmplaceDyn AGENTS pfx_a 3 (base_at 0 0 3) true;
    GInsertEdge 10 11 (Some (mkEA true 5)); GInsertEdge 11 12 None;
    GInsertParentEdge 10 20 None; GInsertParentEdge 20 11 None; GInsertParentEdge 12 21 None;
    GInsertParentEdge (agent 1) 10 None ].
Definition ex_start : Graph := match g_new default_layer_ids with Ok g => g | _ => mkG [] ∅ ∅ ∅ ec_empty ec_empty None end.
Definition ex_graph : Graph := match run_b ex_start ex_ops with Some g => g | None => ex_start end.
Lemma ex_start_reachable : reachable ex_start.
Proof.
  apply (reach_new default_layer_ids); [reflexivity|]. apply (bool_decide_eq_false_1 (UNKNOWN_LAYER ∈ default_layer_ids)).
  vm_compute. reflexivity.
Qed.
Lemma run_b_start os : (match run_b ex_start os with Some _ => true | None => false end) = true ->
  reachable (match run_b ex_start os with Some g => g | None => ex_start end).
Proof.
  destruct (run_b ex_start os) as [g|] eqn:E; [|discriminate]. intros _. exact (run_b_reachable os ex_start g ex_start_reachable E).
Qed.
Lemma ex_reachable : reachable ex_graph.
Proof. apply run_b_start. vm_compute. reflexivity. Qed.
Example ex_counts : g_num_nodes ex_graph false = 8%nat /\ g_num_edges ex_graph = 8%nat /\ g_num_layers ex_graph = 4%nat.
Proof. vm_compute. auto. Qed.
