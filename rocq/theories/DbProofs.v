(** * Databases: proofs *)
From Coq Require Import Lia Permutation.
From Verif Require Import Base BaseFacts DbModel DbSpec.
Local Open Scope nat_scope.

Section DictFacts.
Context {A : Type}.
Implicit Types d : dict A.
Lemma get_put n a d x : get x (put n a d) = if bytes_eqb x n then Some a else get x d.
Proof.
  induction d as [|[y b] d IH]; cbn; [reflexivity|]. destruct (bytes_eqb n y) eqn:E; cbn.
  - apply bytes_eqb_eq in E as ->. now destruct (bytes_eqb x y).
  - rewrite IH. destruct (bytes_eqb x y) eqn:F; [|reflexivity]. apply bytes_eqb_eq in F as ->.
    destruct (bytes_eqb y n) eqn:G; [|reflexivity]. apply bytes_eqb_eq in G as ->. now rewrite bytes_eqb_refl in E.
Qed.
Lemma in_get n d : In n (map fst d) <-> get n d <> None.
Proof.
  induction d as [|[y b] d IH]; cbn; [tauto|]. destruct (bytes_eqb n y) eqn:E.
  - apply bytes_eqb_eq in E as ->. split; [discriminate|auto].
  - rewrite <- IH. split; [intros [->|X]; [now rewrite bytes_eqb_refl in E|exact X]|auto].
Qed.
Lemma in_put n a d x : In x (map fst (put n a d)) <-> x = n \/ In x (map fst d).
Proof.
  rewrite !in_get, get_put. destruct (bytes_eqb x n) eqn:E.
  - apply bytes_eqb_eq in E. split; [auto|discriminate].
  - split; [auto|]. intros [->|X]; [now rewrite bytes_eqb_refl in E|exact X].
Qed.
Lemma put_nodup n a d : NoDup (map fst d) -> NoDup (map fst (put n a d)).
Proof.
  induction d as [|[y b] d IH]; cbn; intros N; [constructor; [tauto|constructor]|].
  apply NoDup_cons_iff in N as [N1 N2]. destruct (bytes_eqb n y) eqn:E; cbn.
  - apply bytes_eqb_eq in E as ->. now constructor.
  - constructor; [|auto]. rewrite in_put. intros [->|X]; [now rewrite bytes_eqb_refl in E|contradiction].
Qed.
Lemma get_del n d x : NoDup (map fst d) -> get x (del n d) = if bytes_eqb x n then None else get x d.
Proof.
  induction d as [|[y b] d IH]; cbn; intros N; [now destruct (bytes_eqb x n)|]. apply NoDup_cons_iff in N as [N1 N2].
  destruct (bytes_eqb n y) eqn:E; cbn.
  - apply bytes_eqb_eq in E as ->. destruct (bytes_eqb x y) eqn:F; [|reflexivity]. apply bytes_eqb_eq in F as ->.
    destruct (get y d) eqn:G; [|reflexivity]. destruct N1. apply in_get. congruence.
  - rewrite (IH N2). destruct (bytes_eqb x y) eqn:F; [|reflexivity]. apply bytes_eqb_eq in F as ->.
    destruct (bytes_eqb y n) eqn:G; [|reflexivity]. apply bytes_eqb_eq in G as ->. now rewrite bytes_eqb_refl in E.
Qed.
Lemma del_nodup n d : NoDup (map fst d) -> NoDup (map fst (del n d)).
Proof.
  induction d as [|[y b] d IH]; cbn; intros N; [constructor|]. apply NoDup_cons_iff in N as [N1 N2].
  destruct (bytes_eqb n y) eqn:E; cbn; [exact N2|]. constructor; [|auto]. rewrite in_get, (get_del _ _ _ N2). 
  destruct (bytes_eqb y n); [congruence|]. now rewrite <- in_get.
Qed.
End DictFacts.

Lemma mem_in t l : mem t l = true <-> In t l.
Proof.
  unfold mem. rewrite existsb_exists. split.
  - intros (x & X & E). apply bytes_eqb_eq in E as ->. exact X.
  - intros X. exists t. split; [exact X|apply bytes_eqb_refl].
Qed.
Lemma in_add t u l : In u (add_tag t l) <-> u = t \/ In u l.
Proof.
  unfold add_tag. destruct (mem t l) eqn:E.
  - apply mem_in in E. split; [auto|]. intros [->|X]; assumption.
  - rewrite in_app_iff. cbn. intuition.
Qed.
Lemma in_remove t u l : In u (remove_tag t l) <-> u <> t /\ In u l.
Proof.
  unfold remove_tag. rewrite filter_In. split.
  - intros [X E]. split; [|exact X]. intros ->. now rewrite bytes_eqb_refl in E.
  - intros [N X]. split; [exact X|]. destruct (bytes_eqb t u) eqn:E; [|reflexivity]. apply bytes_eqb_eq in E. congruence.
Qed.

Lemma map_nodup_in {A B} (f : A -> B) l : (forall x y, In x l -> In y l -> f x = f y -> x = y) -> NoDup l -> NoDup (map f l).
Proof.
  induction l as [|a l IH]; intros I N; [constructor|]. apply NoDup_cons_iff in N as [N1 N2]. cbn. constructor.
  - intros X. apply in_map_iff in X as (b & E & X). apply I in E; [subst; contradiction|now right|now left].
  - apply IH; [|exact N2]. intros x y X Y. apply I; now right.
Qed.

Section D.
Variable json : Type.
Variable dumps : json -> result bytes.
Variable loads : bytes -> result json.
Variable key : Type.
Variable root_filename : key -> bytes.
Variable filename_of : key -> bytes -> bytes -> bytes.
Variable encrypt : nat -> key -> bytes -> bytes -> bytes -> bytes.
Variable decrypt : key -> bytes -> bytes -> bytes -> result bytes.
Variable encrypt_manifest : nat -> key -> bytes -> bytes.
Variable decrypt_manifest : key -> bytes -> result bytes.
Variable new_salt : nat -> bytes.
Variable manifest_text : manifest -> bytes.
Variable manifest_of_text : bytes -> result manifest.
Variable set_order : list bytes -> list bytes.
Variable kk : key.
Variable U : list bytes.
Hypothesis laws : storage_laws dumps loads filename_of encrypt decrypt encrypt_manifest decrypt_manifest new_salt manifest_text manifest_of_text kk U.

Notation value := (value json).
Notation db := (db json key).
Notation adb := (adb json).
Notation reload := (reload json dumps loads).
Notation kept := (kept json dumps loads).
Notation storable := (storable json dumps loads).
Notation to_text := (to_text json dumps).
Notation of_text := (of_text json loads).
Notation save_file := (save_file json dumps key encrypt).
Notation save_files := (save_files json dumps key encrypt).
Notation save_tag := (save_tag json dumps key filename_of encrypt).
Notation set_tag := (set_tag json dumps key filename_of encrypt).
Notation query_tag := (query_tag json loads key filename_of decrypt).
Notation query_all := (query_all json loads key filename_of decrypt).
Notation pop_tag := (pop_tag json loads key filename_of decrypt).
Notation close_manifest := (close_manifest json key root_filename encrypt_manifest manifest_text).
Notation save_database := (save_database json dumps key root_filename encrypt encrypt_manifest manifest_text).
Notation load_manifest := (load_manifest json key root_filename decrypt_manifest new_salt manifest_of_text).
Notation open_db := (open_db json loads key root_filename filename_of decrypt decrypt_manifest new_salt manifest_of_text set_order).
Notation perform := (perform json dumps loads key root_filename filename_of encrypt decrypt encrypt_manifest manifest_text set_order).
Notation session := (session json dumps loads key root_filename filename_of encrypt decrypt encrypt_manifest manifest_text set_order).
Notation astep := (astep json dumps loads set_order).
Notation arun := (arun json dumps loads set_order).
Notation op_ok := (op_ok json dumps loads).

Lemma text_ok v v' : reload v = Ok v' -> exists x, to_text v = Ok x /\ of_text x = Ok v'.
Proof.
  destruct v as [b|j]; cbn.
  - intros E. injection E as <-. eexists. split; [reflexivity|]. unfold of_text. reflexivity.
  - intros E. apply bind_ok in E as (x & D & E). apply bind_ok in E as (j' & L & E). injection E as <-. exists x. split; [exact D|].
    unfold DbModel.of_text, BYTES_FLAG. pose proof (law_json _ _ _ _ _ _ _ _ _ _ _ _ laws j x D) as N.
    destruct (bytes_eqb (firstn 2 x) [x01; x02]) eqn:F; [apply bytes_eqb_eq in F; contradiction|]. rewrite L. reflexivity.
Qed.
Lemma kept_ok v : storable v -> reload v = Ok (kept v).
Proof. intros (v' & E). unfold DbSpec.kept. now rewrite E. Qed.

Lemma kept_storable v : storable v -> storable (kept v) /\ kept (kept v) = kept v.
Proof.
  intros S. pose proof (kept_ok v S) as K. destruct v as [b|j]; [cbn; split; [exists (Bytes _ b)|]; reflexivity|].
  cbn in K. apply bind_ok in K as (x & D & E). apply bind_ok in E as (j' & L & E). injection E as E. rewrite <- E.
  destruct (law_again _ _ _ _ _ _ _ _ _ _ _ _ laws j x j' D L) as (x' & D' & L').
  unfold DbSpec.storable, DbSpec.kept. cbn. rewrite D'. cbn. rewrite L'. cbn. split; [eexists|]; reflexivity.
Qed.

Variable s : bytes.
Hypothesis generated : exists j, s = new_salt j.
Hypothesis distinct : distinct_names root_filename filename_of kk s U.
Notation fn := (filename_of kk s).
Notation root := (root_filename kk).

Lemma fn_eq t u : In t U -> In u U -> bytes_eqb (fn t) (fn u) = bytes_eqb t u.
Proof.
  intros X Y. destruct (bytes_eqb t u) eqn:E.
  - apply bytes_eqb_eq in E as ->. apply bytes_eqb_refl.
  - destruct (bytes_eqb (fn t) (fn u)) eqn:F; [|reflexivity]. apply bytes_eqb_eq in F. apply (proj1 distinct) in F; auto.
    subst. now rewrite bytes_eqb_refl in E.
Qed.
Lemma root_ne t : In t U -> bytes_eqb root (fn t) = false /\ bytes_eqb (fn t) root = false.
Proof.
  intros X. pose proof (proj1 (proj2 distinct t X)) as N. split; apply bytes_eqb_neq; congruence.
Qed.

(** A file holds a value. *)
Definition holds (f : files) (n : bytes) (x : option value) : Prop :=
  match x with
  | None => f n = None
  | Some v => exists ct text, f n = Some ct /\ ct <> [] /\ decrypt kk s n ct = Ok text /\ of_text text = Ok v
  end.
Definition ledger_file (f : files) (l : option (list bytes)) : Prop :=
  match l with
  | None => f root = None
  | Some l => exists ct text mm, f root = Some ct /\ decrypt_manifest kk ct = Ok text /\ manifest_of_text text = Ok mm /\
      m_salt mm = s /\ m_metatags mm = [] /\ m_tags mm = map (fun t => (fn t, t)) l /\ (forall t, In t l -> In t U) /\ NoDup l
  end.

Record rel (a : adb) (d : db) (w : world) : Prop := {
  r_key : k _ _ d = kk;
  r_salt : salt _ _ d = s;
  r_metatags : m_metatags (m _ _ d) = [];
  r_cache : forall t, In t U -> get (fn t) (cache _ _ d) = cached _ a t;
  r_outside : forall n, In n (map fst (cache _ _ d)) -> exists t, In t U /\ n = fn t;
  r_nodup : NoDup (map fst (cache _ _ d));
  r_storable : forall n v, get n (cache _ _ d) = Some v -> storable v;
  r_tags : m_tags (m _ _ d) = map (fun t => (fn t, t)) (listed _ a);
  r_listed : forall t, In t (listed _ a) -> In t U;
  r_once : NoDup (listed _ a);
  r_stored : forall t, In t U -> holds (disk w) (fn t) (stored _ a t);
  r_stable : forall t v, In t U -> stored _ a t = Some v -> storable v;
  r_ledger : ledger_file (disk w) (ledger _ a);
}.

Lemma get_tags t l : In t U -> (forall x, In x l -> In x U) ->
  has (fn t) (map (fun t => (fn t, t)) l) = mem t l.
Proof.
  unfold has. intros X. induction l as [|y l IH]; intros S; cbn; [reflexivity|].
  rewrite fn_eq by (auto with datatypes). destruct (bytes_eqb t y); cbn; [reflexivity|]. apply IH. auto with datatypes.
Qed.
Lemma put_tags t l : In t U -> (forall x, In x l -> In x U) ->
  put (fn t) t (map (fun t => (fn t, t)) l) = map (fun t => (fn t, t)) (add_tag t l).
Proof.
  intros X. unfold add_tag. induction l as [|y l IH]; intros S; cbn; [reflexivity|].
  rewrite fn_eq by (auto with datatypes). destruct (bytes_eqb t y) eqn:E; cbn.
  - apply bytes_eqb_eq in E as ->. reflexivity.
  - rewrite IH by (auto with datatypes). change (existsb (bytes_eqb t) l) with (mem t l). now destruct (mem t l).
Qed.
Lemma remove_none t l : ~ In t l -> remove_tag t l = l.
Proof.
  unfold remove_tag. induction l as [|y l IH]; cbn; intros N; [reflexivity|].
  destruct (bytes_eqb t y) eqn:E; cbn; [apply bytes_eqb_eq in E; subst; tauto|]. rewrite IH; tauto.
Qed.
Lemma del_tags t l : In t U -> (forall x, In x l -> In x U) -> NoDup l ->
  del (fn t) (map (fun t => (fn t, t)) l) = map (fun t => (fn t, t)) (remove_tag t l).
Proof.
  intros X. induction l as [|y l IH]; intros S N; cbn; [reflexivity|]. apply NoDup_cons_iff in N as [N1 N2].
  rewrite fn_eq by (auto with datatypes). destruct (bytes_eqb t y) eqn:E; cbn.
  - apply bytes_eqb_eq in E as ->. change (filter (fun u => negb (bytes_eqb y u)) l) with (remove_tag y l).
    now rewrite remove_none.
  - rewrite IH; auto with datatypes.
Qed.
Lemma add_nodup t l : NoDup l -> NoDup (add_tag t l).
Proof.
  intros N. unfold add_tag. destruct (mem t l) eqn:E; [exact N|].
  apply Permutation_NoDup with (t :: l); [apply Permutation_cons_append|]. constructor; [|exact N].
  rewrite <- mem_in. congruence.
Qed.
Lemma remove_nodup t l : NoDup l -> NoDup (remove_tag t l).
Proof. apply NoDup_filter. Qed.

Lemma holds_other f n n' x o : n <> n' ->
  match o with Write p _ => p = n' | Unlink p => p = n' end ->
  holds f n x -> holds (apply_op o f) n x.
Proof.
  intros N E. assert (apply_op o f n = f n) as F.
  { destruct o as [p data|p]; cbn; subst p; (destruct (bytes_eqb n n') eqn:B; [apply bytes_eqb_eq in B; contradiction|reflexivity]). }
  unfold holds. now rewrite F.
Qed.
Lemma holds_ext f g n x : f n = g n -> holds f n x -> holds g n x.
Proof. unfold holds. intros ->. exact (fun x => x). Qed.
Lemma ledger_ext f g l : f root = g root -> ledger_file f l -> ledger_file g l.
Proof. unfold ledger_file. intros ->. exact (fun x => x). Qed.

(** Writing the file of a tag. *)
Lemma holds_write f t i x v v' : to_text v = Ok x -> of_text x = Ok v' ->
  forall u old, In t U -> In u U -> holds f (fn u) old ->
  holds (apply_op (Write (fn t) (encrypt i kk s (fn t) x)) f) (fn u) (if bytes_eqb u t then Some v' else old).
Proof.
  intros T O u old X Y H. destruct (bytes_eqb u t) eqn:E.
  - apply bytes_eqb_eq in E as ->. cbn. rewrite bytes_eqb_refl. exists (encrypt i kk s (fn t) x), x. repeat split; auto.
    + destruct generated as (j & ->). now apply (law_nonempty _ _ _ _ _ _ _ _ _ _ _ _ laws).
    + destruct generated as (j & ->). now apply (law_decrypt _ _ _ _ _ _ _ _ _ _ _ _ laws).
  - apply (holds_other f (fn u) (fn t)); [|reflexivity|exact H]. apply bytes_eqb_neq. now rewrite fn_eq.
Qed.
Lemma holds_unlink f t u old : In t U -> In u U -> holds f (fn u) old ->
  holds (apply_op (Unlink (fn t)) f) (fn u) (if bytes_eqb u t then None else old).
Proof.
  intros X Y H. destruct (bytes_eqb u t) eqn:E.
  - apply bytes_eqb_eq in E as ->. cbn. now rewrite bytes_eqb_refl.
  - apply (holds_other f (fn u) (fn t)); [|reflexivity|exact H]. apply bytes_eqb_neq. now rewrite fn_eq.
Qed.
Lemma root_kept f t o : In t U -> match o with Write p _ => p = fn t | Unlink p => p = fn t end -> apply_op o f root = f root.
Proof.
  intros X E. destruct (root_ne t X) as [R _]. destruct o; cbn; subst; now rewrite R.
Qed.

Lemma query_sim a d w t silent keep : rel a d w -> In t U ->
  exists d', query_tag d t silent keep w =
    (match current _ a t with Some v => Ok (Some v) | None => if silent then Ok None else Err LookupErr end, d') /\
  rel (match current _ a t with
       | Some v => if keep then {| cached := assign _ t (Some v) (cached _ a); stored := stored _ a;
                       listed := listed _ a; ledger := ledger _ a |} else a
       | None => a end) d' w.
Proof.
  intros R X. unfold DbModel.query_tag, filename, current. rewrite (r_key _ _ _ R), (r_salt _ _ _ R), (r_cache _ _ _ R t X).
  destruct (cached _ a t) as [v|] eqn:C.
  - exists d. split; [reflexivity|]. destruct keep; [|exact R]. destruct R. split; cbn; auto.
    intros u Y. unfold assign. rewrite r_cache0 by exact Y. destruct (bytes_eqb u t) eqn:E; [|reflexivity].
    apply bytes_eqb_eq in E as ->. exact C.
  - pose proof (r_stored _ _ _ R t X) as H. destruct (stored _ a t) as [v|] eqn:S; cbn in H.
    + destruct H as (ct & text & F & N & D & O). rewrite F. destruct ct as [|b ct]; [contradiction|]. rewrite D, O.
      eexists. split; [reflexivity|]. destruct keep; [|exact R]. pose proof (r_stable _ _ _ R t v X S). destruct R. split; cbn; auto.
      * intros u Y. rewrite get_put, fn_eq by assumption. unfold assign. destruct (bytes_eqb u t); auto.
      * intros n Y. apply in_put in Y as [->|Y]; [eauto|auto].
      * now apply put_nodup.
      * intros n v' G. rewrite get_put in G. destruct (bytes_eqb n (fn t)); [injection G as <-|]; eauto.
    + rewrite H. exists d. now destruct silent.
Qed.

Lemma query_all_sim l : forall a d w silent, rel a d w -> (forall t, In t l -> In t U) ->
  exists d', (let '(r, d1) := query_all d l silent w in (reply_of json (fun _ => Done _) r, d1)) = (fst (load_all _ l silent a), d') /\
    rel (snd (load_all _ l silent a)) d' w.
Proof.
  induction l as [|t l IH]; intros a d w silent R S; cbn -[DbModel.query_tag].
  - eexists. split; [reflexivity|exact R].
  - destruct (query_sim a d w t silent true R) as (d' & Q & R'); [auto with datatypes|]. rewrite Q.
    destruct (current _ a t) as [v|] eqn:C.
    + apply IH; auto with datatypes.
    + destruct silent; [apply IH; auto with datatypes|]. eexists. split; [reflexivity|exact R'].
Qed.

Lemma save_file_sim a d w t : rel a d w -> In t U ->
  match cached _ a t with
  | Some v => exists w', save_file d (fn t) w = (Ok tt, w') /\
      (exists x, to_text v = Ok x /\ of_text x = Ok (kept v) /\
         disk w' = apply_op (Write (fn t) (encrypt (clock w) kk s (fn t) x)) (disk w) /\
         log w' = log w ++ [Write (fn t) (encrypt (clock w) kk s (fn t) x)]) /\
      rel {| cached := cached _ a; stored := assign _ t (Some (kept v)) (stored _ a); listed := listed _ a; ledger := ledger _ a |} d w'
  | None => save_file d (fn t) w = (Err AttributeErr, w)
  end.
Proof.
  intros R X. unfold DbModel.save_file. rewrite (r_cache _ _ _ R t X). destruct (cached _ a t) as [v|] eqn:C; [|reflexivity].
  assert (storable v) as S. { apply (r_storable _ _ _ R (fn t)). now rewrite (r_cache _ _ _ R t X). }
  destruct (text_ok v _ (kept_ok v S)) as (x & T & O). rewrite T. eexists. split; [reflexivity|].
  rewrite (r_key _ _ _ R), (r_salt _ _ _ R). split.
  - exists x. repeat split; auto.
  - destruct R. split; cbn -[apply_op]; auto.
    + intros u Y. unfold assign. eapply holds_write; eauto.
    + intros u v' Y. unfold assign. destruct (bytes_eqb u t); [|now apply r_stable0]. intros E. injection E as <-. now apply kept_storable.
    + eapply ledger_ext; [|exact r_ledger0]. symmetry. now apply (root_kept (disk w) t (Write _ _)).
Qed.

Lemma rel_ext a a' d w : rel a d w ->
  (forall t, In t U -> cached _ a' t = cached _ a t /\ stored _ a' t = stored _ a t) ->
  listed _ a' = listed _ a -> ledger _ a' = ledger _ a -> rel a' d w.
Proof.
  intros R E L G. destruct R. split; try rewrite L; try rewrite G; auto.
  - intros t X. rewrite (proj1 (E t X)). auto.
  - intros t X. rewrite (proj2 (E t X)). auto.
  - intros t v X. rewrite (proj2 (E t X)). eauto.
Qed.

Lemma save_tag_sim a d w t drop : rel a d w -> In t U ->
  exists d' w', perform (SaveTag _ t drop) d w = (fst (astep (SaveTag _ t drop) a), d', w') /\
    rel (snd (astep (SaveTag _ t drop) a)) d' w'.
Proof.
  intros R X. cbn. unfold DbModel.save_tag, filename. rewrite (r_key _ _ _ R), (r_salt _ _ _ R).
  pose proof (save_file_sim a d w t R X) as H. destruct (cached _ a t) as [v|] eqn:C.
  - destruct H as (w' & -> & _ & R'). do 2 eexists. split; [reflexivity|]. cbn. destruct drop; [|exact R'].
    destruct R'. split; cbn in *; auto.
    + intros u Y. rewrite (get_del _ _ _ r_nodup0), fn_eq by assumption. unfold assign. destruct (bytes_eqb u t); auto.
    + intros n. rewrite in_get, (get_del _ _ _ r_nodup0). destruct (bytes_eqb n (fn t)); [congruence|]. rewrite <- in_get. auto.
    + now apply del_nodup.
    + intros n v'. rewrite (get_del _ _ _ r_nodup0). destruct (bytes_eqb n (fn t)); [discriminate|]. apply r_storable0.
  - rewrite H. do 2 eexists. split; [reflexivity|]. cbn. destruct drop; [|exact R].
    destruct R. split; cbn in *; auto.
    + intros u Y. rewrite (get_del _ _ _ r_nodup0), fn_eq by assumption. destruct (bytes_eqb u t) eqn:E; auto.
      apply bytes_eqb_eq in E as ->. congruence.
    + intros n. rewrite in_get, (get_del _ _ _ r_nodup0). destruct (bytes_eqb n (fn t)); [congruence|]. rewrite <- in_get. auto.
    + now apply del_nodup.
    + intros n v'. rewrite (get_del _ _ _ r_nodup0). destruct (bytes_eqb n (fn t)); [discriminate|]. apply r_storable0.
Qed.

Lemma set_sim a d w t v : rel a d w -> In t U -> storable v ->
  rel (snd (astep (SetTag _ t v true) a))
      (set_tags _ _ (set_cache _ _ d (put (fn t) v (cache _ _ d))) (put (fn t) t (m_tags (m _ _ d)))) w.
Proof.
  intros R X S. cbn. destruct R. split; cbn; auto.
  - intros u Y. rewrite get_put, fn_eq by assumption. unfold assign. destruct (bytes_eqb u t); auto.
  - intros n Y. apply in_put in Y as [->|Y]; eauto.
  - now apply put_nodup.
  - intros n v'. rewrite get_put. destruct (bytes_eqb n (fn t)); [intros E; injection E as <-; exact S|apply r_storable0].
  - rewrite r_tags0. now apply put_tags.
  - intros u Y. apply in_add in Y as [->|Y]; auto.
  - now apply add_nodup.
Qed.

Lemma unlink_disk n w : disk (unlink n w) = disk w /\ disk w n = None \/ disk (unlink n w) = apply_op (Unlink n) (disk w).
Proof. unfold unlink. destruct (disk w n) eqn:E; [right|left]; auto. Qed.

Lemma remove_sim a d w t : rel a d w -> In t U ->
  rel {| cached := assign _ t None (cached _ a); stored := assign _ t None (stored _ a);
        listed := remove_tag t (listed _ a); ledger := ledger _ a |}
      (set_cache _ _ (set_tags _ _ d (del (fn t) (m_tags (m _ _ d)))) (del (fn t) (cache _ _ d))) (unlink (fn t) w).
Proof.
  intros R X. pose proof (unlink_disk (fn t) w) as D. destruct R. split; cbn -[apply_op]; auto.
  - intros u Y. rewrite (get_del _ _ _ r_nodup0), fn_eq by assumption. unfold assign. destruct (bytes_eqb u t); auto.
  - intros n. rewrite in_get, (get_del _ _ _ r_nodup0). destruct (bytes_eqb n (fn t)); [congruence|]. rewrite <- in_get. auto.
  - now apply del_nodup.
  - intros n v'. rewrite (get_del _ _ _ r_nodup0). destruct (bytes_eqb n (fn t)); [discriminate|]. apply r_storable0.
  - rewrite r_tags0. now apply del_tags.
  - intros u Y. apply in_remove in Y as [_ Y]. auto.
  - now apply remove_nodup.
  - intros u Y. unfold assign. destruct D as [ [-> D]| -> ].
    + destruct (bytes_eqb u t) eqn:E; auto. apply bytes_eqb_eq in E as ->. exact D.
    + apply holds_unlink; auto.
  - intros u v' Y. unfold assign. destruct (bytes_eqb u t); [discriminate|now apply r_stable0].
  - eapply ledger_ext; [|exact r_ledger0]. destruct D as [ [-> _]| -> ]; [reflexivity|].
    symmetry. now apply (root_kept (disk w) t (Unlink _)).
Qed.

Lemma exists_sim a d w t : rel a d w -> In t U -> exists_file (fn t) w = match stored _ a t with Some _ => true | None => false end.
Proof.
  intros R X. unfold exists_file. pose proof (r_stored _ _ _ R t X) as H. destruct (stored _ a t); cbn in H.
  - destruct H as (ct & _ & -> & _). reflexivity.
  - now rewrite H.
Qed.

Lemma close_sim a d w : rel a d w ->
  rel {| cached := cached _ a; stored := stored _ a; listed := listed _ a; ledger := Some (listed _ a) |} d (close_manifest d w).
Proof.
  intros R. unfold DbModel.close_manifest. destruct R. split; cbn -[apply_op]; auto.
  - intros t X. apply (holds_other (disk w) (fn t) root); [|cbn; congruence|auto]. now apply (proj1 (proj2 distinct t X)).
  - rewrite r_key0. cbn. rewrite bytes_eqb_refl. do 3 eexists. split; [reflexivity|].
    split; [apply (law_manifest _ _ _ _ _ _ _ _ _ _ _ _ laws)|]. split; [|split; [exact r_salt0|auto]].
    destruct generated as (j & S). apply (law_text _ _ _ _ _ _ _ _ _ _ _ _ laws) with (j := j).
    + unfold salt in r_salt0. congruence.
    + exact r_metatags0.
    + rewrite r_tags0. intros n t I. apply in_map_iff in I as (u & E & I). assert (fn u = n /\ u = t) as [<- ->] by (split; congruence).
      split; [auto|]. rewrite <- S. split; [reflexivity|]. apply (proj2 distinct). auto.
    + rewrite r_tags0, map_map. cbn. apply map_nodup_in; [|exact r_once0].
      intros x y X Y. apply (proj1 distinct); auto.
Qed.

Definition after_saving (l : list bytes) (a : adb) : adb :=
  {| cached := cached _ a;
     stored := fun t => if mem t l then match cached _ a t with Some v => Some (kept v) | None => stored _ a t end else stored _ a t;
     listed := listed _ a; ledger := ledger _ a |}.

Lemma save_files_sim l : forall a d w, rel a d w -> (forall t, In t l -> In t U /\ cached _ a t <> None) ->
  exists w', save_files d (map fn l) w = (Ok tt, w') /\ rel (after_saving l a) d w'.
Proof.
  induction l as [|t l IH]; intros a d w R S; cbn -[DbModel.save_file].
  - eexists. split; [reflexivity|]. eapply rel_ext; [exact R| |reflexivity|reflexivity]. intros t X. split; reflexivity.
  - destruct (S t) as [X C]; [now left|]. pose proof (save_file_sim a d w t R X) as H.
    destruct (cached _ a t) as [v|] eqn:E; [|contradiction]. destruct H as (w1 & -> & _ & R1).
    destruct (IH _ d w1 R1) as (w' & Q & R'). { intros u Y. apply S. now right. }
    exists w'. split; [exact Q|]. eapply rel_ext; [exact R'| |reflexivity|reflexivity].
    intros u Y. split; [reflexivity|]. cbn. unfold assign. destruct (bytes_eqb u t) eqn:B; cbn; [|reflexivity].
    apply bytes_eqb_eq in B as ->. rewrite E. now destruct (mem t l).
Qed.

Lemma names_of l : (forall n, In n l -> exists t, In t U /\ n = fn t) -> exists ts, l = map fn ts /\ forall t, In t ts -> In t U.
Proof.
  induction l as [|n l IH]; intros H; [exists []; cbn; tauto|].
  destruct (H n) as (t & X & ->); [now left|]. destruct IH as (ts & -> & Y). { intros n I. apply H. now right. }
  exists (t :: ts). split; [reflexivity|]. intros u [<-|I]; auto.
Qed.
Lemma cached_names a d w : rel a d w -> exists ts, map fst (cache _ _ d) = map fn ts /\
  forall t, In t ts <-> In t U /\ cached _ a t <> None.
Proof.
  intros R. destruct (names_of _ (r_outside _ _ _ R)) as (ts & E & Y). exists ts. split; [exact E|].
  intros t. split.
  - intros I. split; [auto|]. rewrite <- (r_cache _ _ _ R) by auto. apply in_get. rewrite E. now apply in_map.
  - intros [X C]. rewrite <- (r_cache _ _ _ R) in C by auto. apply in_get in C. rewrite E in C.
    apply in_map_iff in C as (u & C & I). apply (proj1 distinct) in C; auto. now subst.
Qed.

Lemma save_database_sim a d w : rel a d w ->
  exists w', save_database d w = (Ok tt, w') /\ rel (snd (astep (SaveDatabase _) a)) d w'.
Proof.
  intros R. pose proof (close_sim a d w R) as R1. destruct (cached_names _ _ _ R1) as (ts & E & T).
  destruct (save_files_sim ts _ _ _ R1) as (w' & Q & R'). { intros t. apply T. }
  exists w'. split. { unfold DbModel.save_database, save_tags. rewrite E. exact Q. }
  eapply rel_ext; [exact R'| |reflexivity|reflexivity]. intros t X. split; [reflexivity|]. cbn.
  destruct (mem t ts) eqn:M; [reflexivity|]. destruct (cached _ a t) eqn:C; [|reflexivity].
  assert (In t ts) as I. { apply T. split; [exact X|cbn; congruence]. } apply mem_in in I. congruence.
Qed.

Hypothesis orders : forall l, NoDup l -> Permutation (set_order l) l.

Lemma tags_sim a d w : rel a d w -> tags _ _ d = listed _ a.
Proof. intros R. unfold tags. rewrite (r_tags _ _ _ R), map_map. cbn. apply map_id. Qed.

Theorem perform_sim o a d w : rel a d w -> op_ok U o ->
  exists d' w', perform o d w = (fst (astep o a), d', w') /\ rel (snd (astep o a)) d' w'.
Proof.
  intros R [OT OV]. destruct o as [t v keep|t silent keep|t|t silent|t|t keep| |t drop| |silent|t|].
  - specialize (OT t eq_refl). specialize (OV t v keep eq_refl). pose proof (set_sim a d w t v R OT OV) as R1.
    cbn -[DbSpec.astep]. unfold DbModel.set_tag, filename. rewrite (r_key _ _ _ R), (r_salt _ _ _ R).
    destruct keep; [do 2 eexists; split; [reflexivity|exact R1]|].
    destruct (save_tag_sim _ _ _ t true R1 OT) as (d' & w' & P & R2). exists d', w'. cbn [DbModel.perform] in P.
    destruct (save_tag _ t true w) as [[r d1] w1]. cbn in P, R2. unfold assign in P, R2. rewrite bytes_eqb_refl in P, R2.
    cbn in P, R2. split; [exact P|]. eapply rel_ext; [exact R2| |reflexivity|reflexivity].
    intros u X. cbn. unfold assign. split; [|reflexivity]. now destruct (bytes_eqb u t).
  - specialize (OT t eq_refl). destruct (query_sim a d w t silent keep R OT) as (d' & Q & R'). exists d', w.
    cbn. rewrite Q. destruct (current _ a t); cbn; [split; [reflexivity|exact R']|]. destruct silent; cbn; auto.
  - specialize (OT t eq_refl). exists d, w. cbn. split; [|exact R]. unfold get_item, filename.
    rewrite (r_key _ _ _ R), (r_salt _ _ _ R), (r_cache _ _ _ R t OT). reflexivity.
  - specialize (OT t eq_refl). destruct (query_sim a d w t true false R OT) as (d' & Q & _).
    cbn. unfold DbModel.pop_tag. rewrite Q. cbn [fst].
    assert (filename _ _ filename_of d t = fn t) as ->. { unfold filename. now rewrite (r_key _ _ _ R), (r_salt _ _ _ R). }
    rewrite (r_tags _ _ _ R), (get_tags t (listed _ a) OT (r_listed _ _ _ R)), (exists_sim _ _ _ _ R OT).
    unfold has. rewrite (r_cache _ _ _ R t OT). unfold current. rewrite <- (r_tags _ _ _ R).
    destruct (cached _ a t) as [v|] eqn:C; [|destruct (stored _ a t) as [v|] eqn:S]; cbn; rewrite ?andb_false_r;
      try (do 2 eexists; split; [reflexivity|now apply remove_sim]).
    destruct silent, (mem t (listed _ a)); cbn; do 2 eexists; (split; [reflexivity|now apply remove_sim]).
  - specialize (OT t eq_refl). cbn.
    assert (filename _ _ filename_of d t = fn t) as ->. { unfold filename. now rewrite (r_key _ _ _ R), (r_salt _ _ _ R). }
    do 2 eexists. split; [reflexivity|now apply remove_sim].
  - specialize (OT t eq_refl). cbn. unfold DbModel.rollback_tag.
    assert (filename _ _ filename_of d t = fn t) as ->. { unfold filename. now rewrite (r_key _ _ _ R), (r_salt _ _ _ R). }
    rewrite (exists_sim _ _ _ _ R OT).
    set (d1 := match stored _ a t with Some _ => d | None => set_tags _ _ d (del (fn t) (m_tags (m _ _ d))) end).
    assert ((if match stored _ a t with Some _ => true | None => false end then d else set_tags _ _ d (del (fn t) (m_tags (m _ _ d)))) = d1) as ->
      by (unfold d1; now destruct (stored _ a t)).
    assert (rel {| cached := assign _ t None (cached _ a); stored := stored _ a;
        listed := match stored _ a t with Some _ => listed _ a | None => remove_tag t (listed _ a) end; ledger := ledger _ a |}
        (set_cache _ _ d1 (del (fn t) (cache _ _ d))) w) as R1.
    { unfold d1. destruct R. destruct (stored _ a t) as [v|] eqn:S; split; cbn; auto;
        try (intros u Y; rewrite (get_del _ _ _ r_nodup0), fn_eq by assumption; unfold assign; destruct (bytes_eqb u t); now auto);
        try (intros n; rewrite in_get, (get_del _ _ _ r_nodup0); destruct (bytes_eqb n (fn t)); [congruence|]; rewrite <- in_get; now auto);
        try (now apply del_nodup);
        try (intros n v'; rewrite (get_del _ _ _ r_nodup0); destruct (bytes_eqb n (fn t)); [discriminate|apply r_storable0]).
      - rewrite r_tags0. now apply del_tags.
      - intros u Y. apply in_remove in Y as [_ Y]. auto.
      - now apply remove_nodup. }
    destruct keep; [|do 2 eexists; split; [reflexivity|exact R1]].
    destruct (query_sim _ _ _ t false true R1 OT) as (d' & Q & R'). rewrite Q. clear Q. cbn in *. unfold current in *. cbn in *.
    unfold assign in *. rewrite bytes_eqb_refl in *.
    destruct (stored _ a t) as [v|] eqn:S; do 2 eexists; (split; [reflexivity|]); (eapply rel_ext; [exact R'| |reflexivity|reflexivity]);
      intros u Y; cbn; (split; [|reflexivity]); destruct (bytes_eqb u t); reflexivity.
  - cbn. do 2 eexists. split; [reflexivity|]. destruct R. split; cbn; auto; try tauto; try discriminate. constructor.
  - apply save_tag_sim; auto.
  - destruct (save_database_sim a d w R) as (w' & Q & R'). exists d, w'. cbn [DbModel.perform]. rewrite Q. split; [reflexivity|exact R'].
  - cbn. unfold load_tags. rewrite (tags_sim _ _ _ R). assert (forall t, In t (set_order (listed _ a)) -> In t U) as S.
    { intros t I. apply (r_listed _ _ _ R). eapply Permutation_in; [apply orders; apply (r_once _ _ _ R)|exact I]. }
    destruct (query_all_sim _ a d w silent R S) as (d' & Q & R'). exists d', w.
    destruct (query_all d (set_order (listed _ a)) silent w) as [r d1]. apply pair_equal_spec in Q as [Q1 ->]. rewrite Q1.
    split; [reflexivity|exact R'].
  - specialize (OT t eq_refl). cbn. unfold contains, filename. rewrite (r_key _ _ _ R), (r_salt _ _ _ R), (r_tags _ _ _ R),
      (get_tags t (listed _ a) OT (r_listed _ _ _ R)). unfold has. rewrite (r_cache _ _ _ R t OT).
    do 2 eexists. split; [reflexivity|exact R].
  - cbn. unfold db_len. rewrite (r_tags _ _ _ R), map_length. do 2 eexists. split; [reflexivity|exact R].
Qed.

Theorem session_sim os : forall a d w, rel a d w -> Forall (op_ok U) os ->
  exists d' w', session os d w = (fst (arun os a), d', w') /\ rel (snd (arun os a)) d' w'.
Proof.
  induction os as [|o os IH]; intros a d w R F; cbn -[DbModel.perform DbSpec.astep].
  - do 2 eexists. split; [reflexivity|exact R].
  - inversion_clear F as [|? ? O F']. destruct (perform_sim o a d w R O) as (d1 & w1 & -> & R1).
    destruct (astep o a) as [r a1]. cbn in R1 |- *. destruct (IH a1 d1 w1 R1 F') as (d2 & w2 & -> & R2).
    destruct (arun os a1) as [rs a2]. cbn in R2 |- *. do 2 eexists. split; [reflexivity|exact R2].
Qed.

(** What another process can find. *)
Record on_disk (st : bytes -> option value) (l : option (list bytes)) (f : files) : Prop := {
  o_stored : forall t, In t U -> holds f (fn t) (st t);
  o_stable : forall t v, In t U -> st t = Some v -> storable v;
  o_ledger : ledger_file f l;
}.
Lemma rel_disk a d w : rel a d w -> on_disk (stored _ a) (ledger _ a) (disk w).
Proof. intros []. split; auto. Qed.

Lemma load_reply l : forall silent (a : adb), match fst (load_all _ l silent a) with Done _ => True | Raised _ _ => True | _ => False end.
Proof.
  induction l as [|t l IH]; intros silent a; cbn; [exact I|]. destruct (current _ a t); [apply IH|].
  destruct silent; [apply IH|exact I].
Qed.

Notation load_tags := (load_tags json loads key filename_of decrypt set_order).
Lemma load_tags_sim a d w silent : rel a d w ->
  exists r d', load_tags d silent w = (r, d') /\ reply_of json (fun _ => Done _) r = fst (load_all _ (set_order (listed _ a)) silent a) /\
    rel (snd (load_all _ (set_order (listed _ a)) silent a)) d' w.
Proof.
  intros R. unfold DbModel.load_tags. rewrite (tags_sim _ _ _ R). assert (forall t, In t (set_order (listed _ a)) -> In t U) as S.
  { intros t I. apply (r_listed _ _ _ R). eapply Permutation_in; [apply orders; apply (r_once _ _ _ R)|exact I]. }
  destruct (query_all_sim _ a d w silent R S) as (d' & Q & R').
  destruct (query_all d (set_order (listed _ a)) silent w) as [r d1]. apply pair_equal_spec in Q as [Q1 ->]. exists r, d'. auto.
Qed.

Lemma load_manifest_sim (a : adb) l c w : ledger _ a = Some l -> on_disk (stored _ a) (Some l) (disk w) ->
  (forall t, In t U -> get (fn t) c = cached _ a t) ->
  (forall n, In n (map fst c) -> exists t, In t U /\ n = fn t) ->
  NoDup (map fst c) -> (forall n v, get n c = Some v -> storable v) ->
  exists d, load_manifest kk c w = (Ok d, w) /\
    rel {| cached := cached _ a; stored := stored _ a; listed := l; ledger := Some l |} d w /\ cache _ _ d = c.
Proof.
  intros L [S1 S2 S3] C1 C2 C3 C4. pose proof S3 as S4. destruct S3 as (ct & text & mm & F & D & T & Sa & Me & Tg & In_ & Nd).
  unfold DbModel.load_manifest. rewrite F, D. cbn. rewrite T. cbn. eexists. split; [reflexivity|]. split; [|reflexivity].
  split; cbn; auto.
Qed.

Lemma open_sim st l silent preload w a : on_disk st (Some l) (disk w) -> stored _ a = st ->
  exists r w', open_db kk silent preload w = (r, w') /\ w' = w /\
    reply_of json (fun _ => Done _) r = fst (aopen _ set_order silent preload a l) /\
    (forall d, r = Ok d -> rel (snd (aopen _ set_order silent preload a l)) d w').
Proof.
  intros O E. subst st. destruct (load_manifest_sim {| cached := fun _ => None; stored := stored _ a; listed := l; ledger := Some l |} l [] w eq_refl O) as (d & M & R & _); cbn; auto; try tauto; try discriminate; try constructor.
  unfold DbModel.open_db. rewrite M. cbn in R. unfold aopen. destruct preload.
  - destruct (load_tags_sim _ _ _ silent R) as (r & d' & Q & Q2 & R'). rewrite Q. exists (match r with Ok _ => Ok d' | Err e => Err e end), w.
    split; [reflexivity|]. split; [reflexivity|]. cbn in Q2, R'. unfold reopened. rewrite <- Q2. destruct r; cbn; (split; [reflexivity|]).
    + intros d2 E. injection E as <-. exact R'.
    + discriminate.
  - exists (Ok d), w. split; [reflexivity|]. split; [reflexivity|]. cbn. split; [reflexivity|]. intros d2 E. injection E as <-. exact R.
Qed.

Lemma open_fresh silent preload w : s = new_salt (clock w) -> disk w root = None -> (forall t, In t U -> disk w (fn t) = None) ->
  exists d, open_db kk silent preload w = (Ok d, tick w) /\ rel (empty _) d (tick w).
Proof.
  intros S F G. unfold DbModel.open_db, DbModel.load_manifest. rewrite F.
  assert (rel (empty _) {| k := kk; m := {| m_salt := new_salt (clock w); m_metatags := []; m_tags := [] |}; cache := [] |} (tick w)) as R.
  { split; cbn; auto; try tauto; try discriminate; try constructor. }
  destruct preload; [|eexists; split; [reflexivity|exact R]].
  destruct (load_tags_sim _ _ _ silent R) as (r & d & Q & Q2 & R'). rewrite Q. cbn in Q2, R'.
  assert (set_order [] = []) as Z. { apply Permutation_nil. apply Permutation_sym. apply orders. constructor. }
  rewrite Z in Q2, R'. cbn in Q2, R'. destruct r; [|discriminate]. eexists. split; [reflexivity|exact R'].
Qed.

Notation life := (life json dumps loads key root_filename filename_of encrypt decrypt encrypt_manifest decrypt_manifest new_salt manifest_text manifest_of_text set_order).
Notation alife := (alife json dumps loads set_order).
Lemma ledger_step o a : ledger _ (snd (astep o a)) = match o with SaveDatabase _ => Some (listed _ a) | _ => ledger _ a end.
Proof.
  assert (forall l silent b, ledger _ (snd (load_all json l silent b)) = ledger _ b) as LA.
  { induction l as [|u l IH]; intros silent b; cbn; [reflexivity|]. destruct (current _ b u); [now rewrite IH|].
    destruct silent; [apply IH|reflexivity]. }
  destruct o as [t v keep|t silent keep|t|t silent|t|t keep| |t drop| |silent|t|]; cbn; try reflexivity.
  - now destruct keep.
  - destruct (current _ a t); [now destruct keep|reflexivity].
  - now destruct (cached _ a t).
  - apply LA.
Qed.
Theorem life_sim es : forall a d w, rel a d w -> Forall (event_ok json dumps loads U) es ->
  (ledger _ a <> None \/ saved_first _ es) -> life es d w = alife es a.
Proof.
  induction es as [|[o|silent preload] es IH]; intros a d w R F S; cbn -[DbModel.perform DbSpec.astep DbModel.open_db]; [reflexivity| |].
  - inversion_clear F as [|? ? O F']. destruct (perform_sim o a d w R O) as (d1 & w1 & -> & R1).
    pose proof (ledger_step o a) as L. destruct (astep o a) as [r a1]. cbn in R1, L |- *. f_equal. apply IH; auto.
    destruct S as [S|S]; [left|]; [rewrite L; destruct o; auto; discriminate|].
    destruct o; cbn in S; auto. left. rewrite L. discriminate.
  - inversion_clear F as [|? ? O F']. destruct S as [S|[]]. destruct (ledger _ a) as [l|] eqn:L; [|contradiction].
    pose proof (rel_disk _ _ _ R) as D. rewrite L in D. rewrite (r_key _ _ _ R).
    destruct (open_sim _ l silent preload w a D eq_refl) as (r & w' & -> & -> & E & R').
    destruct (aopen _ set_order silent preload a l) as [r2 a2] eqn:A. cbn in E, R'. destruct r as [d2|e]; cbn in E; subst r2.
    + f_equal. apply IH; auto. left.
      replace (ledger _ a2) with (ledger _ (snd (aopen _ set_order silent preload a l))) by now rewrite A.
      unfold aopen. destruct preload; cbn; [|discriminate].
      assert (forall l silent b, ledger _ (snd (load_all json l silent b)) = ledger _ b) as LA.
      { clear. induction l as [|u l IH]; intros silent b; cbn; [reflexivity|]. destruct (current _ b u); [now rewrite IH|].
        destruct silent; [apply IH|reflexivity]. }
      rewrite LA. discriminate.
    + reflexivity.
Qed.

(** Crashes while saving. *)
Definition good_write (a : adb) (o : fileop) : Prop :=
  exists t i x v, In t U /\ o = Write (fn t) (encrypt i kk s (fn t) x) /\ cached _ a t = Some v /\ to_text v = Ok x /\ of_text x = Ok (kept v).
Lemma save_files_log l : forall a d w, rel a d w -> (forall t, In t l -> In t U /\ cached _ a t <> None) ->
  exists ops, log (snd (save_files d (map fn l) w)) = log w ++ ops /\ Forall (good_write a) ops.
Proof.
  induction l as [|t l IH]; intros a d w R S; cbn -[DbModel.save_file].
  - exists []. split; [now rewrite app_nil_r|constructor].
  - destruct (S t) as [X C]; [now left|]. pose proof (save_file_sim a d w t R X) as H.
    destruct (cached _ a t) as [v|] eqn:E; [|contradiction]. destruct H as (w1 & -> & (x & T & O & _ & G) & R1).
    destruct (IH _ d w1 R1) as (ops & Q & A). { intros u Y. apply S. now right. }
    rewrite Q, G. exists (Write (fn t) (encrypt (clock w) kk s (fn t) x) :: ops). rewrite <- app_assoc. split; [reflexivity|].
    constructor; [|exact A]. exists t, (clock w), x, v. repeat split; auto.
Qed.
Lemma replay_good a p : forall st l f, Forall (good_write a) p -> (forall n v, cached _ a n = Some v -> In n U -> storable v) -> on_disk st l f ->
  exists st', on_disk st' l (replay p f) /\ forall t, In t U -> st' t = st t \/ (exists v, cached _ a t = Some v /\ st' t = Some (kept v)).
Proof.
  induction p as [|o p IH]; intros st l f G S O; [exists st; auto|]. inversion_clear G as [|? ? (t & i & x & v & X & -> & C & T & V) G'].
  cbn [replay fold_left]. destruct (IH (assign _ t (Some (kept v)) st) l (apply_op (Write (fn t) (encrypt i kk s (fn t) x)) f) G' S) as (st' & O' & H).
  - destruct O as [O1 O2 O3]. split.
    + intros u Y. unfold assign. eapply holds_write; eauto.
    + intros u v' Y. unfold assign. destruct (bytes_eqb u t); [|now apply O2]. intros E. injection E as <-. apply kept_storable. eauto.
    + eapply ledger_ext; [|exact O3]. symmetry. now apply (root_kept f t (Write _ _)).
  - exists st'. split; [exact O'|]. intros u Y. destruct (H u Y) as [E|E]; [|auto]. rewrite E. unfold assign.
    destruct (bytes_eqb u t) eqn:B; [|auto]. apply bytes_eqb_eq in B as ->. eauto.
Qed.
Theorem crash_sim a d w w' : rel a d w -> save_database d w = (Ok tt, w') ->
  exists first ops, log w' = log w ++ first :: ops /\
  forall ops' p, Permutation ops ops' -> (exists q, p ++ q = first :: ops') -> ledger _ a <> None \/ p <> [] ->
  exists st l, (Some l = ledger _ a \/ l = listed _ a) /\
    (forall t, In t U -> st t = stored _ a t \/ st t = stored _ (snd (astep (SaveDatabase _) a)) t) /\
    on_disk st (Some l) (replay p (disk w)).
Proof.
  intros R Q. pose proof (close_sim a d w R) as R1. destruct (cached_names _ _ _ R1) as (ts & E & T).
  unfold DbModel.save_database, save_tags in Q. rewrite E in Q.
  destruct (save_files_log ts _ _ _ R1) as (ops & L & G). { intros t. apply T. } rewrite Q in L. cbn [snd] in L.
  exists (Write (root_filename (k _ _ d)) (encrypt_manifest (clock w) (k _ _ d) (manifest_text (m _ _ d)))), ops. split.
  { rewrite L. unfold DbModel.close_manifest. cbn. now rewrite <- app_assoc. }
  intros ops' p P (q & D) N. destruct p as [|o p].
  - destruct N as [N|N]; [|contradiction]. destruct (ledger _ a) as [l|] eqn:LE; [|contradiction].
    exists (stored _ a), l. split; [auto|]. split; [auto|]. pose proof (rel_disk _ _ _ R) as O. now rewrite LE in O.
  - cbn in D. injection D as -> D. assert (Forall (good_write a) p) as Gp.
    { assert (Forall (good_write a) (p ++ q)) as Gq. { rewrite D. eapply Permutation_Forall; [exact P|exact G]. }
      apply Forall_app in Gq. tauto. }
    assert (forall t v, cached _ a t = Some v -> In t U -> storable v) as SC.
    { intros t v C X. apply (r_storable _ _ _ R (fn t)). now rewrite (r_cache _ _ _ R). }
    destruct (replay_good a p _ _ _ Gp SC (rel_disk _ _ _ R1)) as (st & O & H).
    exists st, (listed _ a). split; [auto|]. split; [|exact O]. intros t X. destruct (H t X) as [->|(v & C & ->)]; [auto|]. right.
    cbn. now rewrite C.
Qed.

(** Which files an operation can touch. *)
Lemma save_files_other l : forall d w n, ~ In n l -> disk (snd (save_files d l w)) n = disk w n.
Proof.
  induction l as [|x l IH]; intros d w n N; cbn; [reflexivity|]. unfold DbModel.save_file.
  destruct (get x (cache _ _ d)); [|reflexivity]. destruct (to_text v); [|reflexivity]. rewrite IH by (intros Y; apply N; now right).
  cbn. destruct (bytes_eqb n x) eqn:B; [|reflexivity]. apply bytes_eqb_eq in B as ->. destruct N. now left.
Qed.
Lemma perform_other o a d w n : rel a d w -> op_ok U o -> (forall t, In t U -> n <> fn t) -> n <> root \/ o <> SaveDatabase _ ->
  disk (snd (perform o d w)) n = disk w n.
Proof.
  intros R [OT _] N1 N2.
  assert (forall t, In t U -> filename _ _ filename_of d t = fn t) as FN. { intros t X. unfold filename. now rewrite (r_key _ _ _ R), (r_salt _ _ _ R). }
  assert (forall t dd ww, In t U -> disk (snd (save_file dd (fn t) ww)) n = disk ww n) as SF.
  { intros t dd ww X. unfold DbModel.save_file. destruct (get (fn t) (cache _ _ dd)); [|reflexivity]. destruct (to_text v); [|reflexivity].
    cbn. destruct (bytes_eqb n (fn t)) eqn:B; [|reflexivity]. apply bytes_eqb_eq in B. now apply N1 in B. }
  assert (forall t ww, In t U -> disk (unlink (fn t) ww) n = disk ww n) as UL.
  { intros t ww X. unfold unlink. destruct (disk ww (fn t)); [|reflexivity]. cbn. destruct (bytes_eqb n (fn t)) eqn:B; [|reflexivity].
    apply bytes_eqb_eq in B. now apply N1 in B. }
  destruct o as [t v keep|t silent keep|t|t silent|t|t keep| |t drop| |silent|t|]; cbn; try specialize (OT t eq_refl).
  - unfold DbModel.set_tag. rewrite FN by exact OT. destruct keep; [reflexivity|]. unfold DbModel.save_tag.
    set (d1 := set_tags _ _ (set_cache _ _ d (put (fn t) v (cache _ _ d))) (put (fn t) t (m_tags (m _ _ d)))).
    change (filename _ _ filename_of d1 t) with (filename _ _ filename_of d t). rewrite FN by exact OT.
    pose proof (SF t d1 w OT) as Z.
    destruct (save_file _ (fn t) w). exact Z.
  - destruct (query_tag d t silent keep w). reflexivity.
  - reflexivity.
  - unfold DbModel.pop_tag. rewrite FN by exact OT. destruct (query_tag d t true false w) as [[x|e] d']; cbn; [|reflexivity].
    now apply UL.
  - rewrite FN by exact OT. now apply UL.
  - destruct (rollback_tag _ _ _ _ _ d t keep w). reflexivity.
  - reflexivity.
  - unfold DbModel.save_tag. rewrite FN by exact OT. pose proof (SF t d w OT) as Z. destruct (save_file d (fn t) w). exact Z.
  - destruct N2 as [N2|N2]; [|contradiction]. unfold DbModel.save_database, save_tags.
    pose proof (save_files_other (map fst (cache _ _ d)) d (close_manifest d w) n) as Z.
    destruct (save_files d _ _) as [r w1]. cbn in Z |- *. rewrite Z.
    + rewrite (r_key _ _ _ R). destruct (bytes_eqb n root) eqn:B; [|reflexivity]. apply bytes_eqb_eq in B. contradiction.
    + intros I. destruct (r_outside _ _ _ R _ I) as (t & X & ->). now apply (N1 t).
  - destruct (DbModel.load_tags _ _ _ _ _ _ d silent w). reflexivity.
  - reflexivity.
  - reflexivity.
Qed.
Lemma session_other os : forall a d w n, rel a d w -> Forall (op_ok U) os -> (forall t, In t U -> n <> fn t) ->
  n <> root \/ ~ In (SaveDatabase _) os -> disk (snd (session os d w)) n = disk w n.
Proof.
  induction os as [|o os IH]; intros a d w n R F N1 N2; cbn -[DbModel.perform]; [reflexivity|].
  inversion_clear F as [|? ? O F']. destruct (perform_sim o a d w R O) as (d1 & w1 & P & R1). rewrite P.
  assert (disk w1 n = disk w n) as E.
  { replace w1 with (snd (perform o d w)) by now rewrite P. eapply perform_other; eauto. destruct N2 as [N2|N2]; [auto|right]. intros ->. apply N2. now left. }
  assert (disk (snd (session os d1 w1)) n = disk w1 n) as E2.
  { eapply IH; eauto. destruct N2 as [N2|N2]; [auto|right]. intros X. apply N2. now right. }
  destruct (session os d1 w1) as [[rs d2] w2]. cbn in E2 |- *. congruence.
Qed.
Lemma ledger_run os : forall a, ~ In (SaveDatabase _) os -> ledger _ (snd (arun os a)) = ledger _ a.
Proof.
  induction os as [|o os IH]; intros a N; cbn -[DbSpec.astep]; [reflexivity|]. pose proof (ledger_step o a) as L.
  destruct (astep o a) as [r a1]. cbn in L. pose proof (IH a1 (fun X => N (or_intror X))) as E.
  destruct (arun os a1) as [rs a2]. cbn in E |- *. rewrite E, L. destruct o; auto. destruct N. now left.
Qed.
End D.

(** ** The abstract database *)
Section Abstract.
Variable json : Type.
Variable dumps : json -> result bytes.
Variable loads : bytes -> result json.
Variable set_order : list bytes -> list bytes.
Notation astep := (astep json dumps loads set_order).
Notation arun := (arun json dumps loads set_order).
Notation kept := (kept json dumps loads).
Notation adb := (adb json).
Implicit Types a : adb.

Lemma load_all_same l : forall silent a,
  let a' := snd (load_all json l silent a) in
  (forall t, current _ a' t = current _ a t) /\ stored _ a' = stored _ a /\ listed _ a' = listed _ a /\ ledger _ a' = ledger _ a /\
  (forall t, current _ a t = None -> cached _ a' t = None).
Proof.
  induction l as [|u l IH]; intros silent a; cbn zeta; cbn [load_all snd].
  - repeat split; auto. intros t. unfold current. destruct (cached _ a t); [discriminate|auto].
  - destruct (current _ a u) as [v|] eqn:C.
    + edestruct (IH silent {| cached := assign _ u (Some v) (cached _ a); stored := stored _ a; listed := listed _ a; ledger := ledger _ a |})
        as (A1 & A2 & A3 & A4 & A5). cbn in A2, A3, A4.
      assert (forall t, current _ {| cached := assign _ u (Some v) (cached _ a); stored := stored _ a; listed := listed _ a; ledger := ledger _ a |} t
        = current _ a t) as E.
      { intros t. unfold current at 1. cbn. unfold assign. destruct (bytes_eqb t u) eqn:B; [|reflexivity]. apply bytes_eqb_eq in B as ->. auto. }
      repeat split; auto; intros t; [now rewrite A1|]. intros N. apply A5. now rewrite E.
    + destruct silent; [apply IH|]. cbn. repeat split; auto. intros t. unfold current. destruct (cached _ a t); [discriminate|auto].
Qed.

Lemma leaves_current t o a : leaves _ t o -> current _ (snd (astep o a)) t = current _ a t.
Proof.
  intros L. destruct o as [u v keep|u silent keep|u|u silent|u|u keep| |u drop| |silent|u|]; cbn [leaves] in L.
  - assert (bytes_eqb t u = false) as B by (apply bytes_eqb_neq; congruence). destruct keep; cbn; unfold current; cbn; unfold assign; now rewrite B.
  - cbn. destruct (current _ a u) as [v|] eqn:C; cbn; [|reflexivity]. destruct keep; [|reflexivity]. unfold current at 1. cbn. unfold assign.
    destruct (bytes_eqb t u) eqn:B; [|reflexivity]. apply bytes_eqb_eq in B as ->. auto.
  - reflexivity.
  - assert (bytes_eqb t u = false) as B by (apply bytes_eqb_neq; congruence). cbn; unfold current; cbn; unfold assign; now rewrite B.
  - assert (bytes_eqb t u = false) as B by (apply bytes_eqb_neq; congruence). cbn; unfold current; cbn; unfold assign; now rewrite B.
  - assert (bytes_eqb t u = false) as B by (apply bytes_eqb_neq; congruence). cbn; unfold current; cbn; unfold assign; now rewrite B.
  - contradiction.
  - cbn. destruct (cached _ a u) as [v|] eqn:C; [|reflexivity]. unfold current. cbn. unfold assign. destruct (bytes_eqb t u) eqn:B; [|destruct drop; now rewrite ?B].
    apply bytes_eqb_eq in B as ->. destruct drop; [contradiction|]. now rewrite C.
  - cbn. unfold current. cbn. now destruct (cached _ a t).
  - apply (load_all_same (set_order (listed _ a)) silent a).
  - reflexivity.
  - reflexivity.
Qed.
Lemma arun_cons o os a : arun (o :: os) a = (fst (astep o a) :: fst (arun os (snd (astep o a))), snd (arun os (snd (astep o a)))).
Proof. cbn. destruct (astep o a) as [r a1]. cbn. now destruct (arun os a1). Qed.
Lemma arun_app os : forall os' a, arun (os ++ os') a = (fst (arun os a) ++ fst (arun os' (snd (arun os a))), snd (arun os' (snd (arun os a)))).
Proof.
  induction os as [|o os IH]; intros os' a; [cbn; now destruct (arun os' a)|].
  rewrite <- app_comm_cons, !arun_cons, IH. reflexivity.
Qed.
Lemma leaves_run t os : forall a, Forall (leaves _ t) os -> current _ (snd (arun os a)) t = current _ a t.
Proof.
  induction os as [|o os IH]; intros a F; [reflexivity|]. inversion_clear F. rewrite arun_cons. cbn [snd]. rewrite IH by assumption.
  now apply leaves_current.
Qed.

(** Membership in the listing. *)
Lemma listed_step t o a : leaves _ t o -> In t (listed _ (snd (astep o a))) <-> In t (listed _ a).
Proof.
  intros L. destruct o as [u v keep|u silent keep|u|u silent|u|u keep| |u drop| |silent|u|]; cbn [leaves] in L; try contradiction; cbn; try tauto.
  - destruct keep; cbn; rewrite in_add; intuition congruence.
  - destruct (current _ a u); [destruct keep|]; cbn; tauto.
  - rewrite in_remove. intuition.
  - rewrite in_remove. intuition.
  - destruct (stored _ a u); [tauto|]. rewrite in_remove. intuition.
  - destruct (cached _ a u); cbn; tauto.
  - destruct (load_all_same (set_order (listed _ a)) silent a) as (_ & _ & -> & _). tauto.
Qed.
Lemma listed_run t os : forall a, Forall (leaves _ t) os -> In t (listed _ (snd (arun os a))) <-> In t (listed _ a).
Proof.
  induction os as [|o os IH]; intros a F; [reflexivity|]. inversion_clear F. rewrite arun_cons. cbn [snd]. rewrite IH by assumption.
  now apply listed_step.
Qed.
Lemma contains_current a t : (forall t, current _ a t <> None -> In t (listed _ a)) ->
  fst (astep (Contains _ t) a) = Truth _ true <-> In t (listed _ a).
Proof.
  intros H. cbn. split.
  - intros E. assert (mem t (listed _ a) || match cached _ a t with Some _ => true | None => false end = true) as B by congruence.
    apply orb_true_iff in B as [B|B]; [now apply mem_in|]. apply H. unfold current. destruct (cached _ a t); [discriminate|discriminate].
  - intros I. apply mem_in in I. now rewrite I.
Qed.

Definition consistent a : Prop := NoDup (listed _ a) /\ forall t, current _ a t <> None -> In t (listed _ a).
Lemma consistent_step o a : consistent a -> consistent (snd (astep o a)).
Proof.
  intros [N V]. destruct o as [u v keep|u silent keep|u|u silent|u|u keep| |u drop| |silent|u|]; cbn; try (now split).
  - destruct keep; cbn; (split; [now apply add_nodup|]); intros t; unfold current; cbn; unfold assign; rewrite in_add;
      (destruct (bytes_eqb t u) eqn:B; [apply bytes_eqb_eq in B; auto|]); intros C; right; apply V; exact C.
  - destruct (current _ a u) as [v|] eqn:C; [destruct keep|]; cbn; (split; [exact N|]); auto. intros t. unfold current at 1. cbn. unfold assign.
    destruct (bytes_eqb t u) eqn:B; [apply bytes_eqb_eq in B as ->; intros _; apply V; congruence|apply V].
  - split; [now apply remove_nodup|]. intros t. unfold current. cbn. unfold assign. rewrite in_remove. destruct (bytes_eqb t u) eqn:B; [congruence|].
    apply bytes_eqb_neq in B. intros C. split; [exact B|]. apply V. exact C.
  - split; [now apply remove_nodup|]. intros t. unfold current. cbn. unfold assign. rewrite in_remove. destruct (bytes_eqb t u) eqn:B; [congruence|].
    apply bytes_eqb_neq in B. intros C. split; [exact B|]. apply V. exact C.
  - split; [cbn; destruct (stored _ a u); [exact N|now apply remove_nodup]|]. intros t. unfold current. cbn. unfold assign.
    destruct (bytes_eqb t u) eqn:B.
    + apply bytes_eqb_eq in B as ->. destruct (stored _ a u) as [v|] eqn:S.
      * intros _. apply V. unfold current. destruct (cached _ a u); [discriminate|congruence].
      * destruct keep; congruence.
    + apply bytes_eqb_neq in B. intros C. assert (In t (listed _ a)) as X by (apply V; exact C).
      destruct (stored _ a u); [exact X|]. apply in_remove. auto.
  - split; [exact N|]. intros t C. apply V. unfold current in *. cbn in C. destruct (cached _ a t); [discriminate|exact C].
  - destruct (cached _ a u) as [v|] eqn:C; cbn; (split; [exact N|]); auto. intros t. unfold current. cbn. unfold assign.
    destruct (bytes_eqb t u) eqn:B; [apply bytes_eqb_eq in B as ->; intros _; apply V; unfold current; rewrite C; discriminate|].
    intros X. apply V. unfold current. destruct drop; rewrite ?B in X; exact X.
  - split; [exact N|]. intros t. unfold current. cbn. intros X. apply V. unfold current. destruct (cached _ a t); exact X.
  - destruct (load_all_same (set_order (listed _ a)) silent a) as (A & _ & L & _ & _). unfold consistent. rewrite L. split; [exact N|].
    intros t. rewrite A. apply V.
Qed.
Lemma consistent_run os : forall a, consistent a -> consistent (snd (arun os a)).
Proof.
  induction os as [|o os IH]; intros a C; [exact C|]. rewrite arun_cons. cbn [snd]. apply IH. now apply consistent_step.
Qed.
Lemma consistent_empty : consistent (empty _).
Proof. split; cbn; [constructor|]. intros t X. now contradiction X. Qed.

(** Without clearing, every listed tag has a value. *)
Lemma valued_step o a : o <> ClearCache _ -> (forall t, In t (listed _ a) -> current _ a t <> None) ->
  forall t, In t (listed _ (snd (astep o a))) -> current _ (snd (astep o a)) t <> None.
Proof.
  intros NC V t. destruct o as [u v keep|u silent keep|u|u silent|u|u keep| |u drop| |silent|u|]; cbn; auto; try contradiction.
  - destruct keep; cbn; rewrite in_add; unfold current; cbn; unfold assign; (destruct (bytes_eqb t u) eqn:B; [discriminate|]);
      apply bytes_eqb_neq in B; (intros [X|X]; [contradiction|]); apply V; exact X.
  - destruct (current _ a u) as [v|] eqn:C; [destruct keep|]; cbn; auto. intros X. unfold current. cbn. unfold assign.
    destruct (bytes_eqb t u); [discriminate|]. apply V. exact X.
  - rewrite in_remove. intros [B X]. unfold current. cbn. unfold assign. apply bytes_eqb_neq in B. rewrite B. apply V. exact X.
  - rewrite in_remove. intros [B X]. unfold current. cbn. unfold assign. apply bytes_eqb_neq in B. rewrite B. apply V. exact X.
  - unfold current. cbn. unfold assign. destruct (bytes_eqb t u) eqn:B.
    + apply bytes_eqb_eq in B as ->. destruct (stored _ a u) as [v|] eqn:S; [intros _; destruct keep; discriminate|]. rewrite in_remove. tauto.
    + intros X. apply V. destruct (stored _ a u); [exact X|]. now apply in_remove in X.
  - destruct (cached _ a u) as [v|] eqn:C; cbn; auto. intros X. unfold current. cbn. unfold assign. specialize (V t X). unfold current in V.
    destruct (bytes_eqb t u) eqn:B; [apply bytes_eqb_eq in B as ->; destruct drop; rewrite ?bytes_eqb_refl, ?C; discriminate|]. destruct drop; rewrite ?B; exact V.
  - intros X. specialize (V t X). unfold current in *. cbn. destruct (cached _ a t); exact V.
  - destruct (load_all_same (set_order (listed _ a)) silent a) as (A & _ & L & _ & _). rewrite L, A. apply V.
Qed.
Lemma valued_run os : forall a, ~ In (ClearCache _) os -> (forall t, In t (listed _ a) -> current _ a t <> None) ->
  forall t, In t (listed _ (snd (arun os a))) -> current _ (snd (arun os a)) t <> None.
Proof.
  induction os as [|o os IH]; intros a N V; [exact V|]. rewrite arun_cons. cbn [snd]. apply IH; [intros X; apply N; now right|].
  apply valued_step; [|exact V]. intros ->. apply N. now left.
Qed.

(** Operations that write no file. *)
Lemma unsaved_step o a : unsaved _ o -> stored _ (snd (astep o a)) = stored _ a /\ ledger _ (snd (astep o a)) = ledger _ a.
Proof.
  intros S. destruct o as [u v keep|u silent keep|u|u silent|u|u keep| |u drop| |silent|u|]; cbn in S |- *; try contradiction; auto.
  - subst keep. auto.
  - destruct (current _ a u); [destruct keep|]; auto.
  - destruct (load_all_same (set_order (listed _ a)) silent a) as (_ & -> & _ & -> & _). auto.
Qed.
Lemma unsaved_run os : forall a, Forall (unsaved _) os -> stored _ (snd (arun os a)) = stored _ a /\ ledger _ (snd (arun os a)) = ledger _ a.
Proof.
  induction os as [|o os IH]; intros a F; [auto|]. inversion_clear F. rewrite arun_cons. cbn [snd].
  destruct (IH (snd (astep o a))) as [-> ->]; [assumption|]. now apply unsaved_step.
Qed.
Lemma alife_ops os : forall es a,
  alife json dumps loads set_order (map (Op _) os ++ es) a = fst (arun os a) ++ alife json dumps loads set_order es (snd (arun os a)).
Proof.
  induction os as [|o os IH]; intros es a; [reflexivity|]. rewrite arun_cons. cbn [map app alife fst snd].
  destruct (astep o a) as [r a1] eqn:E. cbn [fst snd]. now rewrite IH.
Qed.
End Abstract.
