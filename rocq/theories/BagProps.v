(** * The mapping that is also a namespace: the property C115 *)
From Coq Require Import Strings.String.
From Verif Require Import Base BaseFacts StrModel StrFacts BagModel BagSpec BagProofs.
Open Scope list_scope.

(** C115: a new instance holds the mapping over the keywords. *)
Theorem C115_new : forall mapping kwargs name, NoDup (map fst mapping) -> NoDup (map fst kwargs) ->
  dict_get str_eqb (new_bag mapping kwargs) name = over (of_dict mapping) (of_dict kwargs) name.
Proof.
  intros m k n A B. unfold new_bag, over, of_dict. rewrite !get_update by assumption. destruct (dict_get str_eqb m n); [reflexivity|].
  destruct (dict_get str_eqb k n); reflexivity.
Qed.

(** C115: whatever has been done before, an operation that does not raise does what it should and nothing else. *)
Theorem C115_operations : forall mapping kwargs before o b' name, fair o ->
  let b := ops (new_bag mapping kwargs) before in
  apply_op b o = Ok b' -> dict_get str_eqb b' name = after (of_dict b) o name.
Proof. intros m k before o b' n F b E. apply apply_after; [apply nodup_ops, nodup_new|exact F|exact E]. Qed.

(** C115: items, attributes, [in], the length and the iteration agree: a name is iterated over once if it is held, else not. *)
Theorem C115_views_agree : forall mapping kwargs before name,
  let b := ops (new_bag mapping kwargs) before in
  NoDup (iterate b) /\ size b = List.length (iterate b) /\
  (In name (iterate b) <-> contains b name = true) /\
  (forall v, get_item b name = Ok v <-> get_attribute b name = Ok (Some v)) /\
  (contains b name = true <-> exists v, get_item b name = Ok v) /\ (contains b name = false <-> get_item b name = Err KeyErr).
Proof.
  intros m k before n b. split; [apply nodup_ops, nodup_new|]. split; [unfold size, iterate; now rewrite map_length|].
  pose proof (get_some_in (V := N) str_eqb str_eqb_eq b n) as G. unfold iterate, contains, get_item, get_attribute.
  destruct (dict_get str_eqb b n) as [v|].
  - repeat split; intros; try congruence; try discriminate; eauto. apply G. eauto.
  - repeat split; intros; try congruence; try discriminate.
    + exfalso. apply G in H as (v & H). discriminate.
    + destruct (existsb (str_eqb n) methods); discriminate.
    + destruct H as (v & H). discriminate.
Qed.

(** C115: a deletion raises if and only if the name is not held; an assignment never does. *)
Theorem C115_what_raises : forall b name v,
  (exists b', apply_op b (SetItem name v) = Ok b') /\ (exists b', apply_op b (SetAttr name v) = Ok b') /\
  (apply_op b (DelItem name) = Err KeyErr <-> ~ In name (map fst b)) /\ (apply_op b (DelAttr name) = Err AttributeErr <-> ~ In name (map fst b)).
Proof.
  intros b n v. split; [eexists; reflexivity|]. split; [eexists; reflexivity|]. cbn. unfold contains. pose proof (get_none (V := N) str_eqb str_eqb_eq b n) as G.
  destruct (dict_get str_eqb b n); split; split; intros H; try discriminate; try reflexivity; try (apply G in H; discriminate); now apply G.
Qed.

(** C115: the five methods work if and only if their own name is not held. *)
Theorem C115_methods : forall b mapping kw,
  ((exists l, keys b = Ok l) <-> ~ In (lit "keys") (map fst b)) /\
  ((exists l, values b = Ok l) <-> ~ In (lit "values") (map fst b)) /\
  ((exists l, items b = Ok l) <-> ~ In (lit "items") (map fst b)) /\
  ((exists b', apply_op b (Update mapping kw) = Ok b') <-> ~ In (lit "update") (map fst b)) /\
  (apply_op b Clear = Ok [] <-> ~ In (lit "clear") (map fst b)).
Proof.
  assert (forall A b name (x : A), In name methods -> ((exists l, call b name x = Ok l) <-> ~ In name (map fst b))) as W.
  { intros A b name x I. destruct (call_works b name x I) as [[P Q] _]. split; [|eauto]. intros (l & E). pose proof (call_ok _ _ _ _ E). subst l. auto. }
  intros b m k. split; [apply W; cbn; tauto|]. split; [apply W; cbn; tauto|]. split; [apply W; cbn; tauto|]. split; [apply W; cbn; tauto|].
  apply call_works. cbn. tauto.
Qed.
(** C115: what they return is the same as what is iterated over. *)
Theorem C115_methods_agree : forall b ks vs its, keys b = Ok ks -> values b = Ok vs -> items b = Ok its -> ks = iterate b /\ its = combine ks vs /\ List.length vs = size b.
Proof.
  intros b ks vs its A B C. apply call_ok in A, B, C. subst. split; [reflexivity|]. split; [|apply map_length].
  induction its as [|[n v] l IH]; [reflexivity|]. cbn. now rewrite <- IH.
Qed.

(** C115 refuted: any name can be stored without harm; and keywords and mapping have the same precedence everywhere.
    After a value was stored as ["update"] or ["keys"] the method is gone; the mapping wins at the start, the keywords in [update]. *)
Theorem C115_any_name_refuted :
  let b := ops (new_bag [] []) [SetItem (lit "update") 1; SetItem (lit "keys") 2] in
  apply_op b (Update [(lit "x", 3%N)] []) = Err TypeErr /\ keys b = Err TypeErr /\ iterate b = [lit "update"; lit "keys"].
Proof. vm_compute. repeat split; reflexivity. Qed.
Theorem C115_precedence_refuted :
  let m := [(lit "x", 1%N)] in let k := [(lit "x", 2%N)] in
  get_item (new_bag m k) (lit "x") = Ok 1%N /\ get_item (ops (new_bag [] []) [Update m k]) (lit "x") = Ok 2%N.
Proof. vm_compute. repeat split; reflexivity. Qed.
Print Assumptions C115_new.
Print Assumptions C115_operations.
Print Assumptions C115_views_agree.
Print Assumptions C115_what_raises.
Print Assumptions C115_methods.
Print Assumptions C115_methods_agree.
Print Assumptions C115_any_name_refuted.
Print Assumptions C115_precedence_refuted.

Example C115_case :
  let b := ops (new_bag [(lit "a", 1%N)] [(lit "b", 2%N)]) [SetAttr (lit "c") 3; DelItem (lit "b"); DelItem (lit "b"); Update [(lit "a", 4%N)] [(lit "d", 5%N)]] in
  items b = Ok [(lit "a", 4%N); (lit "c", 3%N); (lit "d", 5%N)] /\ size b = 3 /\ fair (Update [(lit "a", 4%N)] [(lit "d", 5%N)]).
Proof. split; [vm_compute; reflexivity|]. split; [vm_compute; reflexivity|]. split; apply NoDup_cons; try apply NoDup_nil; intros []. Qed.
