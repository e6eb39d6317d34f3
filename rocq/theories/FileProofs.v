(** * Proofs about reading, writing and appending files *)
From Coq Require Import ZArith Lia Permutation.
From Verif Require Import Base FileModel FileSpec.

Lemma nth_replace {A} i (x : A) l : forall j y, nth_error (replace i x l) j = Some y ->
  (j = i /\ y = x /\ nth_error l i <> None) \/ (j <> i /\ nth_error l j = Some y).
Proof.
  revert i. induction l as [|z l IH]; intros [|i] [|j] y H; cbn in *; try discriminate.
  - left. injection H as <-. repeat split; congruence.
  - right. auto.
  - right. auto.
  - destruct (IH _ _ _ H) as [(-> & -> & F)|(F & G)]; [left|right]; auto.
Qed.
Lemma nth_replaced {A} i (x : A) l : nth_error l i <> None -> nth_error (replace i x l) i = Some x.
Proof. revert i. induction l as [|z l IH]; intros [|i] H; cbn in *; auto; congruence. Qed.
Lemma nth_others {A} i j (x : A) l : i <> j -> nth_error (replace i x l) j = nth_error l j.
Proof.
  revert i j. induction l as [|z l IH]; intros [|i] [|j] H; cbn in *; auto; try congruence.
Qed.

(** One step, seen from the stages. *)
Lemma serve_cases w e : serve w e = w \/
  exists s s' d', nth_error (fst w) (fst e) = Some s /\ proceed s (snd e) (snd w) = (s', d') /\
    serve w e = (replace (fst e) s' (fst w), d').
Proof.
  unfold serve. destruct (nth_error (fst w) (fst e)) as [s|] eqn:N; [|auto].
  destruct (proceed s (snd e) (snd w)) as [s' d'] eqn:P. right. eauto 8.
Qed.
Lemma invariant (I : list stage * disk -> Prop) : (forall w e, I w -> I (serve w e)) ->
  forall es w, I w -> I (serve_all w es).
Proof. intros K es. induction es as [|e es IH]; intros w H; [exact H|]. apply IH, K, H. Qed.

(** The stages that will change the path. *)
Definition will (s : stage) (p : nat) : Prop :=
  match s with
  | Before c => changes c p
  | Writing q _ _ | Appending q _ => q = p
  | _ => False
  end.
Lemma other_disk (d : disk) p q l : p <> q -> now_holds d q l p = d p.
Proof. intros F. unfold now_holds. destruct (Nat.eqb_spec p q); congruence. Qed.
Lemma this_disk (d : disk) p l : now_holds d p l p = Some l.
Proof. unfold now_holds. rewrite Nat.eqb_refl. reflexivity. Qed.

Lemma proceed_other s a d s' d' p : proceed s a d = (s', d') -> ~ will s p -> d' p = d p /\ ~ will s' p.
Proof.
  intros P W. destruct s as [c|q rest got|q pos rest|q rest|r], a as [n|]; cbn in P;
    try (injection P as <- <-; cbn; tauto).
  - destruct c as [q z|q l|q l]; cbn in P, W.
    + destruct (d q); [destruct (z <? -1)%Z; [|destruct (z =? -1)%Z; [|destruct (z =? 0)%Z]]|]; injection P as <- <-; cbn; auto.
    + destruct l as [|b l]; injection P as <- <-; (split; [destruct (Nat.eqb_spec p q); congruence|cbn; auto]).
    + destruct l as [|b l]; injection P as <- <-; (split; [destruct (Nat.eqb_spec p q); congruence|cbn; auto]).
  - set (piece := firstn _ _) in P.
    destruct piece as [|b piece], rest as [m|]; try (injection P as <- <-; cbn; tauto).
    destruct (m - length (b :: piece)); injection P as <- <-; cbn; tauto.
  - cbn in W. destruct rest as [|b rest]; cbn in P; [|destruct (skipn n rest)]; injection P as <- <-; cbn;
      (split; [apply other_disk; congruence|tauto]).
  - cbn in W. destruct rest as [|b rest]; cbn in P; [|destruct (skipn n rest)]; injection P as <- <-; cbn;
      (split; [apply other_disk; congruence|tauto]).
Qed.

(** Paths that no call changes. *)
Definition untouched (d : disk) (p : nat) (w : list stage * disk) : Prop :=
  snd w p = d p /\ forall j s, nth_error (fst w) j = Some s -> ~ will s p.
Lemma untouched_serve d p w e : untouched d p w -> untouched d p (serve w e).
Proof.
  intros (E & W). destruct (serve_cases w e) as [->|(s & s' & d' & N & P & ->)]; [split; auto|].
  destruct (proceed_other _ _ _ _ _ p P (W _ _ N)) as [E' W']. split; cbn; [congruence|].
  intros j t H. destruct (nth_replace _ _ _ _ _ H) as [(-> & -> & _)|(_ & G)]; eauto.
Qed.
Lemma nth_calls cs j s : nth_error (calls cs) j = Some s -> exists c, nth_error cs j = Some c /\ s = Before c.
Proof.
  unfold calls. rewrite nth_error_map. destruct (nth_error cs j); cbn; [|discriminate]. injection 1 as <-. eauto.
Qed.
Lemma calls_nth cs j c : nth_error cs j = Some c -> nth_error (calls cs) j = Some (Before c).
Proof. intros E. unfold calls. rewrite nth_error_map, E. reflexivity. Qed.
Lemma untouched_start d p cs : (forall c, In c cs -> ~ changes c p) -> untouched d p (calls cs, d).
Proof.
  intros H. split; [reflexivity|]. intros j s N. destruct (nth_calls _ _ _ N) as (c & Nc & ->).
  apply H. eapply nth_error_In; eauto.
Qed.
Lemma untouched_all d p cs es : (forall c, In c cs -> ~ changes c p) -> snd (serve_all (calls cs, d) es) p = d p.
Proof.
  intros H. apply (invariant (untouched d p) (untouched_serve d p) es). apply untouched_start; auto.
Qed.

(** One call that writes. *)
Definition partly (d : disk) p data (d' : disk) : Prop :=
  d' p = d p \/ exists part, d' p = Some part /\ begins part data.
Definition writes (d : disk) p data (d' : disk) (s : stage) : Prop :=
  match s with
  | Before c => c = Write p data /\ d' p = d p
  | Writing q pos rest => q = p /\ rest <> [] /\ exists part, data = part ++ rest /\ pos = length part /\ d' p = Some part
  | Back (Ok _) => d' p = Some data
  | Back (Err e) => e = OtherErr /\ partly d p data d'
  | _ => False
  end.
Lemma placed_end part piece : placed (length part) piece part = part ++ piece.
Proof.
  unfold placed. rewrite firstn_all, Nat.sub_diag. cbn. f_equal.
  rewrite skipn_all2 by lia. apply app_nil_r.
Qed.
Lemma writes_proceed d p data s a d1 s' d2 : proceed s a d1 = (s', d2) -> writes d p data d1 s -> writes d p data d2 s'.
Proof.
  intros P W. destruct s as [c|q r g|q pos rest|q rest|r]; cbn in W; try contradiction.
  - destruct W as (-> & E). destruct a as [n|]; cbn in P.
    + destruct data as [|b l]; injection P as <- <-; cbn.
      * rewrite Nat.eqb_refl. reflexivity.
      * split; [reflexivity|]. split; [discriminate|]. exists []. rewrite Nat.eqb_refl. auto.
    + injection P as <- <-. cbn. split; [reflexivity|left; auto].
  - destruct W as (-> & F & part & -> & -> & E). destruct a as [n|]; cbn [proceed] in P.
    + unfold held in P. rewrite E, placed_end in P.
      pose proof (firstn_skipn (S n) rest) as FS.
      destruct (skipn (S n) rest) as [|b l] eqn:K; injection P as <- <-; cbn [writes].
      * rewrite this_disk. rewrite app_nil_r in FS. do 2 f_equal. exact FS.
      * split; [reflexivity|]. split; [discriminate|]. exists (part ++ firstn (S n) rest).
        rewrite this_disk, app_length, <- app_assoc. split; [f_equal; symmetry; exact FS|auto].
    + injection P as <- <-. cbn. split; [reflexivity|right]. exists part. split; [exact E|exists rest; reflexivity].
  - cbn in P. injection P as <- <-. cbn. exact W.
Qed.
Definition one_writes (d : disk) p data i (w : list stage * disk) : Prop :=
  (exists s, nth_error (fst w) i = Some s /\ writes d p data (snd w) s) /\
  forall j s, nth_error (fst w) j = Some s -> j <> i -> ~ will s p.
Lemma writes_same d p data d1 d2 s : d2 p = d1 p -> writes d p data d1 s -> writes d p data d2 s.
Proof. intros E W. destruct s as [c| | | |[?|?]]; cbn in *; auto; unfold partly in *; rewrite ?E; auto. Qed.
Lemma one_writes_serve d p data i w e : one_writes d p data i w -> one_writes d p data i (serve w e).
Proof.
  intros ((s & N & W) & O). destruct (serve_cases w e) as [->|(t & t' & d' & Nt & P & ->)]; [split; eauto|].
  destruct (Nat.eq_dec (fst e) i) as [<-|F].
  - assert (t = s) as -> by congruence. split; cbn.
    + exists t'. split; [apply nth_replaced; congruence|eapply writes_proceed; eauto].
    + intros j u H Fj. destruct (nth_replace _ _ _ _ _ H) as [(-> & _)|(_ & G)]; [congruence|eauto].
  - destruct (proceed_other _ _ _ _ _ p P (O _ _ Nt F)) as [E' W']. split; cbn.
    + exists s. rewrite nth_others by exact F. split; [exact N|]. eapply writes_same; eauto.
    + intros j u H Fj. destruct (nth_replace _ _ _ _ _ H) as [(-> & -> & _)|(_ & G)]; eauto.
Qed.
Lemma one_writes_all d p data i cs es : nth_error cs i = Some (Write p data) -> only i cs p ->
  one_writes d p data i (serve_all (calls cs, d) es).
Proof.
  intros N O. apply (invariant (one_writes d p data i) (one_writes_serve d p data i)). split; cbn.
  - exists (Before (Write p data)). split; [apply calls_nth, N|cbn; auto].
  - intros j s H F W. destruct (nth_calls _ _ _ H) as (c & Nc & ->). apply F. eapply O; eauto.
Qed.
Lemma writes_partly d p data d' s : writes d p data d' s -> partly d p data d'.
Proof.
  destruct s as [c| | | |[?|?]]; cbn; try tauto.
  - intros (_ & E). left; exact E.
  - intros (_ & _ & part & -> & _ & E). right. exists part. split; [exact E|exists rest; reflexivity].
  - intros E. right. exists data. split; [exact E|exists []; symmetry; apply app_nil_r].
Qed.

(** Calls that append. *)
Lemma share_app {A} i o1 o2 (l1 l2 : list A) : length o1 = length l1 -> share i (o1 ++ o2) (l1 ++ l2) = share i o1 l1 ++ share i o2 l2.
Proof.
  revert l1. induction o1 as [|o o1 IH]; intros [|x l1] H; cbn in *; try discriminate; [reflexivity|].
  rewrite IH by lia. destruct (o =? i)%nat; reflexivity.
Qed.
Lemma share_own {A} i (l : list A) : share i (repeat i (length l)) l = l.
Proof. induction l; cbn; [reflexivity|]. rewrite Nat.eqb_refl. congruence. Qed.
Lemma share_other {A} i j (l : list A) : j <> i -> share i (repeat j (length l)) l = [].
Proof. intros F. induction l; cbn; [reflexivity|]. destruct (Nat.eqb_spec j i); congruence. Qed.

Definition appends (p : nat) (c : call) (s : stage) (mine : bytes) : Prop :=
  match c with
  | Append q data =>
      if Nat.eqb q p then
        match s with
        | Before c' => c' = c /\ mine = []
        | Appending q' rest => q' = p /\ rest <> [] /\ data = mine ++ rest
        | Back (Ok _) => mine = data
        | Back (Err e) => e = OtherErr /\ begins mine data
        | _ => False
        end
      else ~ will s p /\ mine = []
  | _ => ~ will s p /\ mine = []
  end.
Definition merged (d : disk) p cs (w : list stage * disk) : Prop :=
  exists owners l, contents (snd w) p = contents d p ++ l /\ length owners = length l /\
    (forall i c, nth_error cs i = Some c -> exists s, nth_error (fst w) i = Some s /\ appends p c s (share i owners l)) /\
    (forall i, In i owners -> nth_error cs i <> None) /\
    (d p <> None -> snd w p <> None) /\
    (forall i s, nth_error (fst w) i = Some s -> nth_error cs i <> None).
Lemma contents_held d p : contents d p = held d p. Proof. reflexivity. Qed.
Lemma appends_proceed p c s a d s' d' mine : proceed s a d = (s', d') -> appends p c s mine ->
  exists more, contents d' p = contents d p ++ more /\ appends p c s' (mine ++ more) /\ (d p <> None -> d' p <> None).
Proof.
  intros P W. unfold appends in *.
  assert (Oth : ~ will s p /\ mine = [] -> exists more, contents d' p = contents d p ++ more /\ (~ will s' p /\ mine ++ more = []) /\ (d p <> None -> d' p <> None)).
  { intros (Nw & ->). destruct (proceed_other _ _ _ _ _ p P Nw) as [E W']. exists []. unfold contents. rewrite E, app_nil_r. repeat split; auto. }
  destruct c as [q z|q data|q data]; try (apply Oth; exact W).
  destruct (Nat.eqb_spec q p) as [->|F]; [|apply Oth; exact W]. clear Oth.
  destruct s as [c| | |q rest|r]; try contradiction.
  - destruct W as (-> & ->). destruct a as [n|]; cbn in P.
    + destruct data as [|b l]; injection P as <- <-; exists []; unfold contents; rewrite Nat.eqb_refl, !app_nil_r.
      * repeat split; auto; discriminate.
      * repeat split; auto; discriminate.
    + injection P as <- <-. exists []. rewrite !app_nil_r. split; [reflexivity|]. split; [|auto].
      split; [reflexivity|]. exists data. reflexivity.
  - destruct W as (-> & F & ->). destruct a as [n|]; cbn [proceed] in P.
    + pose proof (firstn_skipn (S n) rest) as FS. exists (firstn (S n) rest).
      destruct (skipn (S n) rest) as [|b l] eqn:K; injection P as <- <-; unfold contents; rewrite this_disk.
      * split; [reflexivity|]. split; [|discriminate]. rewrite app_nil_r in FS. congruence.
      * split; [reflexivity|]. split; [|discriminate]. split; [reflexivity|]. split; [discriminate|]. rewrite <- app_assoc. congruence.
    + injection P as <- <-. exists []. rewrite !app_nil_r. split; [reflexivity|]. split; [|auto].
      split; [reflexivity|]. exists rest. reflexivity.
  - cbn in P. injection P as <- <-. exists []. rewrite !app_nil_r. auto.
Qed.
Lemma merged_serve d p cs w e : merged d p cs w -> merged d p cs (serve w e).
Proof.
  intros (owners & l & E & L & A & O & Ex & B). destruct (serve_cases w e) as [->|(t & t' & d' & Nt & P & ->)].
  { exists owners, l. repeat (split; [assumption|]). assumption. }
  set (i := fst e) in *. destruct (nth_error cs i) as [c|] eqn:Nc; [|exfalso; exact (B _ _ Nt Nc)].
  destruct (A _ _ Nc) as (s & Ns & W). assert (t = s) as -> by congruence.
  destruct (appends_proceed _ _ _ _ _ _ _ _ P W) as (more & E' & W' & X').
  exists (owners ++ repeat i (length more)), (l ++ more). cbn. split; [rewrite E', E, <- app_assoc; reflexivity|].
  split; [rewrite !app_length, repeat_length; lia|].
  split; [|split; [|split]].
  - intros j c' Nj. rewrite share_app by exact L. destruct (Nat.eq_dec i j) as [<-|F].
    + exists t'. rewrite share_own. split; [apply nth_replaced; congruence|]. assert (c' = c) as -> by congruence. exact W'.
    + rewrite share_other, app_nil_r by exact F. rewrite nth_others by exact F. apply A, Nj.
  - intros j Hj. apply in_app_or in Hj as [Hj|Hj]; [auto|]. apply repeat_spec in Hj as ->. congruence.
  - auto.
  - intros j u H. destruct (nth_replace _ _ _ _ _ H) as [(-> & _ & _)|(_ & G)]; [congruence|eauto].
Qed.
Lemma merged_all d p cs es : appended cs p -> merged d p cs (serve_all (calls cs, d) es).
Proof.
  intros H. apply (invariant (merged d p cs) (merged_serve d p cs)). exists [], []. cbn.
  rewrite app_nil_r. split; [reflexivity|]. split; [reflexivity|]. split; [|split; [tauto|split; [auto|]]].
  - intros i c N. exists (Before c). split; [apply calls_nth, N|]. cbn.
    destruct c as [q z|q l|q l]; cbn; [auto| |].
    + split; [|reflexivity]. intros ->. destruct (H _ _ N eq_refl) as (x & X). discriminate.
    + destruct (Nat.eqb_spec q p); auto.
  - intros i s N. destruct (nth_calls _ _ _ N) as (c & Nc & _). congruence.
Qed.

(** Calls that read while others append. *)
Definition reads (d : disk) p size (d' : disk) (s : stage) : Prop :=
  match s with
  | Before c => c = Read p size
  | Reading q rest got => q = p /\ d' p <> None /\ begins got (contents d' p) /\
      match rest with None => size = (-1)%Z | Some n => (0 < n)%nat /\ (0 < size)%Z /\ Z.to_nat size = (length got + n)%nat end
  | Back (Ok got) => begins got (contents d' p) /\
      if (size =? -1)%Z then begins (contents d p) got
      else (0 <= size)%Z /\ (length got <= Z.to_nat size)%nat /\ (length got = Z.to_nat size \/ begins (contents d p) got)
  | Back (Err e) => e = FileNotFoundErr /\ d p = None \/ e = ValueErr /\ (size < -1)%Z \/ e = OtherErr
  | _ => False
  end.
Lemma begins_app {A} (a b c : list A) : begins a b -> begins a (b ++ c).
Proof. intros (x & ->). exists (x ++ c). apply eq_sym, app_assoc. Qed.
Lemma begins_length {A} (a b c : list A) : begins a c -> begins b c -> length a <= length b -> begins a b.
Proof.
  intros (x & ->) (y & E) L. exists (firstn (length b - length a) x).
  assert (H : firstn (length b) (a ++ x) = b) by (rewrite E, firstn_app, Nat.sub_diag, firstn_all; apply app_nil_r).
  rewrite <- H at 1. rewrite firstn_app, firstn_all2 by lia. reflexivity.
Qed.
Lemma skipn_begins {A} (a l : list A) : begins a l -> l = a ++ skipn (length a) l.
Proof. intros (x & ->). rewrite skipn_app, skipn_all, Nat.sub_diag. reflexivity. Qed.
(** [d1] begins with [d]. *)
Lemma reads_proceed d p size s a d1 s' d2 : proceed s a d1 = (s', d2) ->
  (exists more, contents d1 p = contents d p ++ more) -> (d p <> None -> d1 p <> None) -> reads d p size d1 s -> reads d p size d2 s' /\ d2 = d1.
Proof.
  intros P (grown & G) X W. destruct s as [c|q rest got| | |r]; cbn in W; try contradiction.
  - subst c. destruct a as [n|]; cbn in P.
    + destruct (d1 p) as [l|] eqn:D.
      * destruct (Z.ltb_spec size (-1)); [injection P as <- <-; cbn; split; auto|].
        destruct (Z.eqb_spec size (-1)); [injection P as <- <-; cbn; split; [|reflexivity]|].
        -- split; [reflexivity|]. split; [congruence|]. split; [exists (contents d1 p); reflexivity|auto].
        -- destruct (Z.eqb_spec size 0); injection P as <- <-; cbn; (split; [|reflexivity]).
           ++ split; [exists (contents d1 p); reflexivity|]. subst size. cbn. auto with zarith.
           ++ split; [reflexivity|]. split; [congruence|]. split; [exists (contents d1 p); reflexivity|]. lia.
      * injection P as <- <-. cbn. split; [|reflexivity]. left. split; [reflexivity|].
        destruct (d p) as [l|]; [|reflexivity]. exfalso. apply X; congruence.
    + injection P as <- <-. cbn. auto.
  - destruct W as (-> & Nn & Bg & R). destruct a as [n|]; cbn [proceed] in P; [|injection P as <- <-; cbn; auto].
    rewrite <- contents_held in P.
    set (k := match rest with Some n0 => _ | None => _ end) in P.
    set (piece := firstn k (skipn (length got) (contents d1 p))) in P.
    assert (Bp : begins (got ++ piece) (contents d1 p)).
    { rewrite (skipn_begins got (contents d1 p)) by exact Bg. exists (skipn k (skipn (length got) (contents d1 p))).
      rewrite <- app_assoc. unfold piece. rewrite firstn_skipn. reflexivity. }
    assert (Kp : (0 < k)%nat) by (unfold k; destruct rest; lia).
    assert (End : piece = [] -> begins (contents d p) (got ++ piece)).
    { intros Pe. rewrite Pe, app_nil_r.
      assert (Sk : skipn (length got) (contents d1 p) = []).
      { unfold piece in Pe. destruct (skipn (length got) (contents d1 p)) as [|b r]; [reflexivity|].
        destruct k; [lia|discriminate]. }
      rewrite (skipn_begins got (contents d1 p) Bg), Sk, app_nil_r in G. rewrite G. exists grown. reflexivity. }
    destruct rest as [m|].
    + destruct R as (Rm & Sz & Rs).
      assert (Lp : (length piece <= m)%nat) by (unfold piece, k; rewrite firstn_length; lia).
      destruct (Z.eqb_spec size (-1)); [lia|].
      destruct piece as [|b piece]; [|destruct (m - length (b :: piece)) as [|m'] eqn:M]; injection P as <- <-; cbn [reads]; (split; [|reflexivity]).
      * split; [exact Bp|]. destruct (Z.eqb_spec size (-1)); [lia|]. rewrite app_length. cbn [length] in *. split; [lia|]. split; [lia|]. right. apply End. reflexivity.
      * split; [exact Bp|]. destruct (Z.eqb_spec size (-1)); [lia|]. rewrite app_length. split; [lia|]. split; [lia|]. left. lia.
      * split; [reflexivity|]. split; [exact Nn|]. split; [exact Bp|]. rewrite app_length. lia.
    + subst size. destruct piece as [|b piece]; injection P as <- <-; cbn [reads]; (split; [|reflexivity]).
      * split; [exact Bp|]. cbn. apply End. reflexivity.
      * auto.
  - cbn in P. injection P as <- <-. cbn. auto.
Qed.
Lemma reads_grow d p size d1 d2 s : (exists more, contents d2 p = contents d1 p ++ more) -> (d1 p <> None -> d2 p <> None) ->
  reads d p size d1 s -> reads d p size d2 s.
Proof.
  intros (more & E) X W. destruct s as [c|q rest got| | |[r|e]]; cbn in *; auto.
  - destruct W as (-> & Nn & Bg & R). split; [reflexivity|]. split; [auto|]. split; [|exact R]. rewrite E. apply begins_app, Bg.
  - destruct W as (Bg & R). split; [rewrite E; apply begins_app, Bg|exact R].
Qed.
Definition one_reads (d : disk) p size cs i (w : list stage * disk) : Prop :=
  merged d p cs w /\ exists s, nth_error (fst w) i = Some s /\ reads d p size (snd w) s.
Lemma one_reads_serve d p size cs i w e : one_reads d p size cs i w -> one_reads d p size cs i (serve w e).
Proof.
  intros (Mg & s & N & W). split; [apply merged_serve, Mg|].
  pose proof Mg as (owners & l & E & L & A & O & Ex & B).
  destruct (serve_cases w e) as [->|(t & t' & d' & Nt & P & ->)]; [eauto|]. cbn.
  destruct (Nat.eq_dec (fst e) i) as [<-|F].
  - assert (t = s) as -> by congruence. exists t'. split; [apply nth_replaced; congruence|].
    apply (reads_proceed _ _ _ _ _ _ _ _ P) in W as [W ->]; eauto.
  - exists s. rewrite nth_others by exact F. split; [exact N|]. destruct (nth_error cs (fst e)) as [c|] eqn:Nc; [|exfalso; exact (B _ _ Nt Nc)].
    destruct (A _ _ Nc) as (s2 & Ns & W2). assert (t = s2) as -> by congruence.
    destruct (appends_proceed _ _ _ _ _ _ _ _ P W2) as (more & E' & W' & X').
    eapply reads_grow; eauto.
Qed.
Lemma one_reads_all d p size cs i es : nth_error cs i = Some (Read p size) -> appended cs p ->
  one_reads d p size cs i (serve_all (calls cs, d) es).
Proof.
  intros N H. apply (invariant (one_reads d p size cs i) (one_reads_serve d p size cs i)). split.
  - exact (merged_all d p cs [] H).
  - exists (Before (Read p size)). split; [apply calls_nth, N|reflexivity].
Qed.

(** Errors of the operating system. *)
Lemma refused_only cs d es i : nth_error (fst (serve_all (calls cs, d) es)) i = Some (Back (Err OtherErr)) -> In (i, Refuse) es.
Proof.
  assert (G : forall es w, (forall s, nth_error (fst w) i = Some s -> s <> Back (Err OtherErr)) ->
    nth_error (fst (serve_all w es)) i = Some (Back (Err OtherErr)) -> In (i, Refuse) es).
  { clear. intros es. induction es as [|e es IH]; cbn; intros w H N; [exfalso; eapply H; eauto|].
    destruct e as [j a].
    destruct (serve_cases w (j, a)) as [E|(t & t' & d' & Nt & P & E)].
    { right. apply (IH (serve w (j, a))); [rewrite E; exact H|exact N]. }
    destruct (Nat.eq_dec j i) as [->|F].
    - destruct a as [n|]; [|auto]. right. apply (IH (serve w (i, Transfer n))); [|exact N]. rewrite E. cbn. intros s Hs.
      destruct (nth_replace _ _ _ _ _ Hs) as [(_ & -> & _)|(Fj & _)]; [|congruence].
      cbn in Nt, P. specialize (H _ Nt). clear - P H.
      destruct t as [c|q rest got|q pos rest|q rest|r]; cbn [proceed] in P; cbv zeta in P.
      + destruct c as [q z|q l|q l]; cbn in P.
        * destruct (snd w q); [destruct (z <? -1)%Z; [|destruct (z =? -1)%Z; [|destruct (z =? 0)%Z]]|]; injection P as <- <-; discriminate.
        * destruct l; injection P as <- <-; discriminate.
        * destruct l; injection P as <- <-; discriminate.
      + revert P. generalize (firstn (match rest with Some n0 => Nat.min (S n) n0 | None => S n end) (skipn (length got) (held (snd w) q))). intros piece P.
        destruct piece as [|b piece], rest as [m|]; cbn in P; try (injection P as <- <-; discriminate).
        destruct (m - S (length piece)); injection P as <- <-; discriminate.
      + destruct (skipn (S n) rest); injection P as <- <-; discriminate.
      + destruct (skipn (S n) rest); injection P as <- <-; discriminate.
      + injection P as <- <-. exact H.
    - right. apply (IH (serve w (j, a))); [|exact N]. rewrite E. cbn. intros s Hs. rewrite nth_others in Hs by exact F. eauto. }
  apply G. cbn. intros s Hs. destruct (nth_calls _ _ _ Hs) as (c & _ & ->). discriminate.
Qed.

(** Calls that write come back. *)
Definition left (s : stage) : nat :=
  match s with
  | Before (Write _ l) | Before (Append _ l) => S (length l)
  | Writing _ _ l | Appending _ l => length l
  | _ => 0
  end.
Definition writer (s : stage) : Prop :=
  match s with Before (Read _ _) | Reading _ _ _ => False | Writing _ _ [] | Appending _ [] => False | _ => True end.
Lemma writer_proceed s a d s' d' : proceed s a d = (s', d') -> writer s -> writer s' /\ (left s' = 0 \/ left s' < left s).
Proof.
  intros P W. destruct s as [c|q rest got|q pos rest|q rest|r]; cbn in W; try contradiction.
  - destruct a as [n|]; [|injection P as <- <-; cbn; auto]. destruct c as [q z|q l|q l]; [contradiction| |];
      cbn in P; destruct l; injection P as <- <-; cbn; auto.
  - destruct a as [n|]; [|injection P as <- <-; cbn; auto]. cbn [proceed] in P. cbv zeta in P.
    assert (L := skipn_length (S n) rest).
    destruct (skipn (S n) rest) as [|b l] eqn:K; injection P as <- <-; cbn; [auto|]. split; [exact I|].
    destruct rest; [contradiction|]. cbn [length] in *. lia.
  - destruct a as [n|]; [|injection P as <- <-; cbn; auto]. cbn [proceed] in P. cbv zeta in P.
    assert (L := skipn_length (S n) rest).
    destruct (skipn (S n) rest) as [|b l] eqn:K; injection P as <- <-; cbn; [auto|]. split; [exact I|].
    destruct rest; [contradiction|]. cbn [length] in *. lia.
  - cbn in P. injection P as <- <-. cbn. auto.
Qed.
Lemma writer_back s : writer s -> left s = 0 -> exists r, s = Back r.
Proof. destruct s as [[| |]|q rest got|q pos [|]|q [|]|r]; cbn; try contradiction; try discriminate; eauto. Qed.
Lemma writers_come_back es : forall w i s, nth_error (fst w) i = Some s -> writer s -> left s <= served i es ->
  exists r, nth_error (fst (serve_all w es)) i = Some (Back r).
Proof.
  induction es as [|e es IH]; intros w i s N W L.
  - cbn in L. destruct (writer_back s W) as (r & ->); [lia|]. exists r. exact N.
  - cbn [serve_all fold_left]. unfold served in L. cbn in L.
    destruct (Nat.eqb_spec (fst e) i) as [<-|F].
    + destruct (proceed s (snd e) (snd w)) as [s1 d1] eqn:P. destruct (writer_proceed _ _ _ _ _ P W) as [W1 Lf].
      apply (IH (serve w e) (fst e) s1); [|exact W1|cbn in L; unfold served; lia].
      unfold serve. rewrite N, P. cbn. apply nth_replaced. congruence.
    + apply (IH (serve w e) i s); [|exact W|exact L].
      destruct (serve_cases w e) as [->|(t & t' & d' & Nt & P & ->)]; [exact N|]. cbn. rewrite nth_others by exact F. exact N.
Qed.

(** Calls that read come back, if nobody writes. *)
Definition unread (d : disk) p (s : stage) : nat :=
  match s with
  | Before _ => 2 + length (contents d p)
  | Reading _ _ got => S (length (contents d p) - length got)
  | _ => 0
  end.
Definition reader (d : disk) p (s : stage) : Prop :=
  match s with
  | Before c => exists z, c = Read p z
  | Reading q _ got => q = p /\ length got <= length (contents d p)
  | Back _ => True
  | _ => False
  end.
Lemma reader_proceed d p s a s' d' : proceed s a d = (s', d') -> reader d p s ->
  reader d p s' /\ (unread d p s' = 0 \/ unread d p s' < unread d p s).
Proof.
  intros P W. destruct s as [c|q rest got|q pos rest|q rest|r]; cbn in W; try contradiction.
  - destruct W as (z & ->). destruct a as [n|]; [|injection P as <- <-; cbn; auto]. cbn in P.
    destruct (d p) as [l|]; [destruct (z <? -1)%Z; [|destruct (z =? -1)%Z; [|destruct (z =? 0)%Z]]|]; injection P as <- <-; cbn;
      (split; [auto; split; auto; lia|lia]).
  - destruct W as (-> & L). destruct a as [n|]; [|injection P as <- <-; cbn; auto]. cbn [proceed] in P. cbv zeta in P.
    rewrite <- contents_held in P.
    set (piece := firstn _ _) in P.
    assert (Lp : (length piece <= length (contents d p) - length got)%nat) by (unfold piece; rewrite firstn_length, skipn_length; lia).
    destruct piece as [|b piece], rest as [m|]; cbn in P; try (injection P as <- <-; cbn; auto).
    + destruct (m - S (length piece)); cbn; [auto|]. rewrite app_length. cbn [length] in *. lia.
    + rewrite app_length. cbn [length] in *. lia.
  - cbn in P. injection P as <- <-. cbn. auto.
Qed.
Lemma reader_back d p s : reader d p s -> unread d p s = 0 -> exists r, s = Back r.
Proof. destruct s; cbn; try contradiction; try discriminate; eauto. Qed.
Lemma readers_come_back p d es : forall w i s, untouched d p w -> nth_error (fst w) i = Some s -> reader d p s -> unread d p s <= served i es ->
  exists r, nth_error (fst (serve_all w es)) i = Some (Back r).
Proof.
  induction es as [|e es IH]; intros w i s U N W L.
  - cbn in L. destruct (reader_back d p s W) as (r & ->); [lia|]. exists r. exact N.
  - cbn [serve_all fold_left]. unfold served in L. cbn in L. pose proof (untouched_serve _ _ _ e U) as U'.
    destruct (Nat.eqb_spec (fst e) i) as [<-|F].
    + destruct (proceed s (snd e) (snd w)) as [s1 d1] eqn:P.
      destruct U as (E & _).
      assert (Same : forall t, reader (snd w) p t <-> reader d p t) by (intros t; destruct t; cbn; unfold contents; rewrite ?E; tauto).
      assert (Less : forall t, unread (snd w) p t = unread d p t) by (intros t; destruct t; cbn; unfold contents; rewrite ?E; reflexivity).
      apply Same in W. destruct (reader_proceed _ p _ _ _ _ P W) as [W1 Lf]. apply Same in W1. rewrite !Less in Lf.
      apply (IH (serve w e) (fst e) s1); [exact U'| |exact W1|cbn in L; unfold served; lia].
      unfold serve. rewrite N, P. cbn. apply nth_replaced. congruence.
    + apply (IH (serve w e) i s); [exact U'| |exact W|exact L].
      destruct (serve_cases w e) as [->|(t & t' & d' & Nt & P & ->)]; [exact N|]. cbn. rewrite nth_others by exact F. exact N.
Qed.

(** Appending in one piece. *)
Definition in_order (d : disk) p cs (w : list stage * disk) : Prop :=
  exists order, NoDup order /\ (forall i, In i order -> nth_error cs i <> None) /\ contents (snd w) p = contents d p ++ concat (map (piece_of cs p) order) /\
    (forall i s, nth_error (fst w) i = Some s -> nth_error cs i <> None) /\
    forall i c, nth_error cs i = Some c -> exists s, nth_error (fst w) i = Some s /\
      match c with
      | Append q data =>
          if Nat.eqb q p then
            (In i order <-> exists r, s = Back r) /\ (s = Before c \/ s = Appending p data \/ exists r, s = Back r)
          else ~ will s p /\ ~ In i order
      | _ => ~ will s p /\ ~ In i order
      end.
Lemma in_order_serve d p cs w e : in_order d p cs w ->
  (exists n, snd e = Transfer n /\ forall q data, In (Append q data) cs -> length data <= S n) -> in_order d p cs (serve w e).
Proof.
  intros (order & Nd & Lo & E & B & A) (n & Tr & Big). destruct (serve_cases w e) as [->|(t & t' & d' & Nt & P & ->)].
  { exists order. repeat (split; [assumption|]). assumption. }
  rewrite Tr in P. set (i := fst e) in *. destruct (nth_error cs i) as [c|] eqn:Nc; [|exfalso; exact (B _ _ Nt Nc)].
  destruct (A _ _ Nc) as (s & Ns & W). assert (t = s) as -> by congruence. clear Ns.
  assert (Bounds : forall j u, nth_error (replace i t' (fst w)) j = Some u -> nth_error cs j <> None).
  { intros j u H. destruct (nth_replace _ _ _ _ _ H) as [(-> & _ & _)|(_ & G)]; [congruence|eauto]. }
  assert (Oth : ~ will s p /\ ~ In i order ->
    (match c with Append q _ => q <> p | _ => True end) -> in_order d p cs (replace i t' (fst w), d')).
  { intros (Nw & Ni) Fp. destruct (proceed_other _ _ _ _ _ p P Nw) as [E' W']. exists order. cbn. split; [exact Nd|]. split; [exact Lo|].
    split; [unfold contents in *; rewrite E'; exact E|]. split; [exact Bounds|].
    intros j c' Nj. destruct (Nat.eq_dec i j) as [<-|F].
    - exists t'. split; [apply nth_replaced; congruence|]. assert (c' = c) as -> by congruence.
      destruct c as [| |q data]; auto. destruct (Nat.eqb_spec q p); [congruence|auto].
    - rewrite nth_others by exact F. apply A, Nj. }
  destruct c as [q z|q data|q data]; try (apply Oth; [exact W|exact I]).
  destruct (Nat.eqb_spec q p) as [->|F]; [|apply Oth; [exact W|exact F]]. clear Oth.
  destruct W as (Io & [->|[->|(r & ->)]]).
  - assert (Ni : ~ In i order) by (intros Hi; apply Io in Hi as (r & ?); discriminate).
    cbn in P. destruct data as [|b l]; injection P as <- <-.
    + exists (order ++ [i]). cbn. split.
      { apply (Permutation_NoDup (Permutation_cons_append order i)). constructor; assumption. }
      split; [intros j Hj; apply in_app_or in Hj as [Hj|[<-|[]]]; [auto|congruence]|].
      split.
      { unfold contents at 1. rewrite Nat.eqb_refl. rewrite map_app, concat_app. cbn. unfold piece_of at 2. rewrite Nc, Nat.eqb_refl.
        cbn. rewrite app_nil_r. unfold contents in E. exact E. }
      split; [exact Bounds|]. intros j c' Nj. destruct (Nat.eq_dec i j) as [<-|F].
      * exists (Back (Ok [])). split; [apply nth_replaced; congruence|]. rewrite Nc in Nj. injection Nj as <-. rewrite Nat.eqb_refl.
        split; [|right; right; eauto]. split; [eauto|]. intros _. apply in_or_app. right. left. reflexivity.
      * rewrite nth_others by exact F. destruct (A _ _ Nj) as (s & Ns & W). exists s. split; [exact Ns|].
        assert (X : In j (order ++ [i]) <-> In j order) by (rewrite in_app_iff; cbn; intuition congruence).
        destruct c' as [| |q' data']; try (rewrite X; exact W). destruct (q' =? p)%nat; rewrite X; exact W.
    + exists order. cbn. split; [exact Nd|]. split; [exact Lo|]. split; [unfold contents at 1; rewrite Nat.eqb_refl; exact E|].
      split; [exact Bounds|]. intros j c' Nj. destruct (Nat.eq_dec i j) as [<-|F].
      * exists (Appending p (b :: l)). split; [apply nth_replaced; congruence|]. rewrite Nc in Nj. injection Nj as <-. rewrite Nat.eqb_refl.
        split; [|auto]. split; [intros Hi; contradiction|intros (r & ?); discriminate].
      * rewrite nth_others by exact F. apply A, Nj.
  - assert (Ni : ~ In i order) by (intros Hi; apply Io in Hi as (r & ?); discriminate).
    assert (Lb : length data <= S n) by (eapply Big, nth_error_In, Nc).
    cbn [proceed] in P. cbv zeta in P. rewrite skipn_all2, firstn_all2 in P by exact Lb. injection P as <- <-.
    exists (order ++ [i]). cbn. split.
    { apply (Permutation_NoDup (Permutation_cons_append order i)). constructor; assumption. }
    split; [intros j Hj; apply in_app_or in Hj as [Hj|[<-|[]]]; [auto|congruence]|].
    split.
    { unfold contents at 1. rewrite this_disk. rewrite map_app, concat_app. cbn. unfold piece_of at 2. rewrite Nc, Nat.eqb_refl.
      rewrite app_nil_r. rewrite <- contents_held. rewrite E. rewrite <- app_assoc. reflexivity. }
    split; [exact Bounds|]. intros j c' Nj. destruct (Nat.eq_dec i j) as [<-|F].
    + exists (Back (Ok [])). split; [apply nth_replaced; congruence|]. rewrite Nc in Nj. injection Nj as <-. rewrite Nat.eqb_refl.
      split; [|right; right; eauto]. split; [eauto|]. intros _. apply in_or_app. right. left. reflexivity.
    + rewrite nth_others by exact F. destruct (A _ _ Nj) as (s & Ns & W). exists s. split; [exact Ns|].
      assert (X : In j (order ++ [i]) <-> In j order) by (rewrite in_app_iff; cbn; intuition congruence).
      destruct c' as [| |q' data']; try (rewrite X; exact W). destruct (q' =? p)%nat; rewrite X; exact W.
  - cbn in P. injection P as <- <-. exists order. cbn. split; [exact Nd|]. split; [exact Lo|]. split; [exact E|]. split; [exact Bounds|].
    intros j c' Nj. destruct (Nat.eq_dec i j) as [<-|F].
    + exists (Back r). split; [apply nth_replaced; congruence|]. rewrite Nc in Nj. injection Nj as <-. rewrite Nat.eqb_refl.
      split; [exact Io|right; right; eauto].
    + rewrite nth_others by exact F. apply A, Nj.
Qed.
Lemma in_order_all d p cs es : appended cs p -> whole cs es -> in_order d p cs (serve_all (calls cs, d) es).
Proof.
  intros H Wh.
  assert (G : forall es w, whole cs es -> in_order d p cs w -> in_order d p cs (serve_all w es)).
  { intros l. induction l as [|e l IH]; intros w K I; [exact I|]. apply IH; [intros x Hx; apply K; right; exact Hx|].
    apply in_order_serve; [exact I|]. apply K. left. reflexivity. }
  apply G; [exact Wh|]. exists []. cbn. rewrite app_nil_r. split; [constructor|]. split; [tauto|]. split; [reflexivity|]. split.
  - intros i s N. destruct (nth_calls _ _ _ N) as (c & Nc & _). congruence.
  - intros i c N. exists (Before c). split; [apply calls_nth, N|]. destruct c as [q z|q l|q l]; cbn; auto.
    + split; [|auto]. intros ->. destruct (H _ _ N eq_refl) as (x & X). discriminate.
    + destruct (Nat.eqb_spec q p); [|auto]. split; [|auto]. split; [tauto|intros (r & ?); discriminate].
Qed.

(** Reading while nobody writes. *)
Definition quiet (d : disk) p size (s : stage) : Prop :=
  match s with
  | Before c => c = Read p size
  | Back (Err OtherErr) => True
  | Back r => r = match d p with
      | None => Err FileNotFoundErr
      | Some l => if (size <? -1)%Z then Err ValueErr else Ok (wanted size l)
      end
  | _ => d p <> None /\ ~ (size < -1)%Z
  end.
Lemma begins_both {A} (a b : list A) : begins a b -> begins b a -> a = b.
Proof.
  intros (x & ->) (y & E). assert (L := f_equal (@length A) E). rewrite !app_length in L.
  destruct x; [symmetry; apply app_nil_r|cbn in L; lia].
Qed.
Lemma one_quiet_read cs d es i p size r :
  nth_error cs i = Some (Read p size) -> (forall c, In c cs -> ~ changes c p) ->
  nth_error (fst (serve_all (calls cs, d) es)) i = Some (Back r) -> ~ In (i, Refuse) es ->
  r = match d p with
      | None => Err FileNotFoundErr
      | Some l => if (size <? -1)%Z then Err ValueErr else Ok (wanted size l)
      end.
Proof.
  intros N Q B F.
  assert (A : appended cs p) by (intros j c Nj Ch; exfalso; exact (Q c (nth_error_In _ _ Nj) Ch)).
  pose proof (one_reads_all d p size cs i es N A) as (_ & s & Ns & W). rewrite B in Ns. injection Ns as <-.
  pose proof (untouched_all d p cs es Q) as U.
  assert (K : exists s, nth_error (fst (serve_all (calls cs, d) es)) i = Some s /\ quiet d p size s).
  { assert (G : untouched d p (serve_all (calls cs, d) es) /\ exists s, nth_error (fst (serve_all (calls cs, d) es)) i = Some s /\
       (s = Before (Read p size) \/ (exists n got, s = Reading p n got) /\ d p <> None /\ ~ (size < -1)%Z \/
        exists r, s = Back r /\ match r with Ok _ => d p <> None /\ ~ (size < -1)%Z | Err e => 
           (d p = None -> e = FileNotFoundErr \/ e = OtherErr) /\ (d p <> None -> e = ValueErr /\ (size < -1)%Z \/ e = OtherErr) end)).
    { apply (invariant (fun w => untouched d p w /\ exists s, nth_error (fst w) i = Some s /\ _)).
      - intros w e (Uw & s & Nw & H). split; [apply untouched_serve, Uw|].
        destruct (serve_cases w e) as [->|(t & t' & d' & Nt & P & ->)]; [eauto|]. cbn.
        destruct (Nat.eq_dec (fst e) i) as [<-|Fi]; [|exists s; rewrite nth_others by exact Fi; auto].
        assert (t = s) as -> by congruence. exists t'. split; [apply nth_replaced; congruence|].
        destruct Uw as (E & _). destruct H as [->|[((n & got & ->) & H)|(x & -> & H)]].
        + destruct (snd e) as [m|]; cbn in P; [|injection P as <- <-; right; right; eexists; split; [reflexivity|]; cbn; auto].
          rewrite E in P. destruct (d p) as [l|] eqn:D.
          * destruct (Z.ltb_spec size (-1)); [injection P as <- <-; right; right; eexists; split; [reflexivity|]; split; [discriminate|auto]|].
            destruct (size =? -1)%Z; [|destruct (size =? 0)%Z]; injection P as <- <-; right.
            -- left. split; [eauto|]. split; [discriminate|lia].
            -- right. eexists. split; [reflexivity|]. split; [discriminate|lia].
            -- left. split; [eauto|]. split; [discriminate|lia].
          * injection P as <- <-. right; right. eexists. split; [reflexivity|]. split; [auto|congruence].
        + right. destruct (snd e) as [m|]; cbn [proceed] in P; cbv zeta in P; [|injection P as <- <-; right; eexists; split; [reflexivity|]; cbn; auto].
          revert P. generalize (firstn (match n with Some n0 => Nat.min (S m) n0 | None => S m end) (skipn (length got) (held (snd w) p))). intros piece P.
          assert (R : forall x, exists r0 : result bytes, Back (Ok x) = Back r0 /\ match r0 with Ok _ => d p <> None /\ ~ (size < -1)%Z | Err e0 =>
             (d p = None -> e0 = FileNotFoundErr \/ e0 = OtherErr) /\ (d p <> None -> e0 = ValueErr /\ (size < -1)%Z \/ e0 = OtherErr) end)
            by (intros x; exists (Ok x); split; [reflexivity|exact H]).
          destruct piece as [|b piece], n as [n|]; cbn in P; try (injection P as <- <-; first [right; apply R|left; split; [do 2 eexists; reflexivity|exact H]]).
          destruct (n - S (length piece)); injection P as <- <-; first [right; apply R|left; split; [do 2 eexists; reflexivity|exact H]].
        + cbn in P. injection P as <- <-. right. right. eauto.
      - split; [apply untouched_start, Q|]. exists (Before (Read p size)). split; [apply calls_nth, N|auto]. }
    destruct G as (_ & s & Ns & H). exists s. split; [exact Ns|]. rewrite B in Ns. injection Ns as <-.
    destruct H as [H|[((? & ? & H) & _)|(x & Hx & H)]]; try discriminate. injection Hx as <-.
    destruct r as [got|e].
    - destruct H as (Dn & Sz). cbn. cbn in W. destruct W as (Bg & W). unfold contents in *. rewrite U in Bg.
      destruct (d p) as [l|]; [|congruence]. destruct (Z.ltb_spec size (-1)); [contradiction|]. f_equal. unfold wanted.
      destruct (size =? -1)%Z; [apply begins_both; assumption|]. destruct W as (Z0 & Ln & [Le|Bl]).
      + destruct Bg as (x & ->). rewrite firstn_app, Le, Nat.sub_diag, <- Le, firstn_all. cbn. symmetry. apply app_nil_r.
      + rewrite (begins_both _ _ Bg Bl) in *. symmetry. apply firstn_all2. exact Ln.
    - destruct H as (Hn & Hs). cbn in *.
      assert (Ne : e <> OtherErr) by (intros ->; apply F, (refused_only cs d es i), B).
      destruct (d p) as [l|].
      + destruct Hs as [(-> & Sz)| ->]; [discriminate| |congruence]. destruct (Z.ltb_spec size (-1)); [reflexivity|lia].
      + destruct Hn as [->| ->]; auto; congruence. }
  destruct K as (s & Ns & K). rewrite B in Ns. injection Ns as <-.
  destruct r as [got|e]; [exact K|]. destruct e; try exact K.
  exfalso. apply F, (refused_only cs d es i), B.
Qed.
