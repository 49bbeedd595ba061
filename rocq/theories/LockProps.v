(** C44: concurrent and interrupted production of samples. *)
From Coq Require Import List Arith Lia Bool.
Import ListNotations.
From Verif Require Import LockProto.

Lemma upd_eq {A} (m : nat -> A) i x : upd m i x i = x.
Proof. unfold upd. now rewrite Nat.eqb_refl. Qed.
Lemma upd_neq {A} (m : nat -> A) i x k : k <> i -> upd m i x k = m k.
Proof. intros H. unfold upd. now rewrite (proj2 (Nat.eqb_neq k i) H). Qed.
Lemma run_app es fs s s' : run es s = Some s' -> run (es ++ fs) s = run fs s'.
Proof. revert s. induction es as [|e es IH]; cbn; intros s H; [now injection H as ->|]. destruct (ev e s); [auto|discriminate]. Qed.
Lemma run_inv (P : sys -> Prop) : (forall e s s', P s -> ev e s = Some s' -> P s') -> forall es s s', P s -> run es s = Some s' -> P s'.
Proof.
  intros HP es. induction es as [|e es IH]; cbn; intros s s' H R; [now injection R as <-|]. destruct (ev e s) as [s1|] eqn:E; [|discriminate]. eauto.
Qed.

(** the job is producing the file: it has created the lock and not removed it *)
Definition busy (f : nat) (p : pc) : bool :=
  match p with Locked g | Made g | Saving g | Saved g => Nat.eqb g f | _ => false end.
(** the file that the job is dealing with *)
Definition holds (f : nat) (p : pc) : bool :=
  match p with Next => false | Loading g | NoNpy g | NoLock g | Locked g | Made g | Saving g | Saved g => Nat.eqb g f end.

(** * When all jobs finish, all the requested files are there and complete *)
Section Done.
Variable lists : nat -> list nat.
Record inv (s : sys) : Prop := mkInv {
  i_part : forall f, npy s f = Partial -> exists k, at_ (jobs s k) = Saving f;
  i_lock : forall f, lock s f = true -> (exists k, busy f (at_ (jobs s k)) = true) \/ forall j, brk (jobs s j) = true;
  i_save : forall f k, at_ (jobs s k) = Saving f \/ at_ (jobs s k) = Saved f -> npy s f <> Absent;
  i_load : forall f k, at_ (jobs s k) = Loading f -> npy s f <> Absent;
  i_todo : forall j f, In f (lists j) -> In f (todo (jobs s j)) \/ holds f (at_ (jobs s j)) = true \/ npy s f <> Absent \/ exists k, busy f (at_ (jobs s k)) = true }.
Definition inv' (s : sys) : Prop := (exists k, alive (jobs s k) = false) \/ inv s.

Ltac pick k i := destruct (Nat.eq_dec k i) as [->|?]; [rewrite ?upd_eq in *|rewrite ?upd_neq in * by assumption].
Lemma inv_step e s s' : inv' s -> ev e s = Some s' -> inv' s'.
Proof.
  intros [[k Hk]|H] E.
  - left. exists k. destruct e as [i|i]; cbn in E.
    + unfold act in E. destruct (alive (jobs s i)) eqn:A; [|discriminate]. assert (K : k <> i) by congruence. cbn [negb] in E.
      destruct (at_ (jobs s i)); try destruct (todo (jobs s i)); try destruct (npy s f); try destruct (lock s f && negb (brk (jobs s i))); try destruct (lock s f);
        try discriminate; injection E as <-; cbn; rewrite upd_neq by exact K; exact Hk.
    + destruct (alive (jobs s i)) eqn:A; [|discriminate]. injection E as <-. cbn. assert (k <> i) by congruence. now rewrite upd_neq.
  - destruct e as [i|i]; cbn in E.
    2: { destruct (alive (jobs s i)); [|discriminate]. injection E as <-. left. exists i. cbn. now rewrite upd_eq. }
    unfold act in E. destruct (alive (jobs s i)) eqn:A; [|discriminate]. cbn [negb] in E. destruct H as [Hp Hl Hs Hd Ht].
    destruct (at_ (jobs s i)) as [|f|f|f|f|f|f|f] eqn:P.
    + (* Next *)
      destruct (todo (jobs s i)) as [|f l] eqn:T; [discriminate|]. injection E as <-. right.
      set (p := match npy s f with Absent => NoNpy f | _ => Loading f end).
      assert (Hp1 : forall g, busy g p = false /\ p <> Saving g /\ p <> Saved g /\ (p = Loading g -> npy s g <> Absent) /\ holds f p = true).
      { intros g. unfold p. destruct (npy s f) eqn:N; cbn; rewrite ?Nat.eqb_refl; repeat split; try discriminate; intros Q; injection Q as <-; rewrite N; discriminate. }
      split; cbn.
      * intros g Hg. destruct (Hp g Hg) as [k Hk]. exists k. pick k i; [congruence|exact Hk].
      * intros g Hg. destruct (Hl g Hg) as [[k Hk]|Hk]; [left; exists k|right; intros j; specialize (Hk j)].
        { pick k i; [rewrite P in Hk; discriminate|exact Hk]. }
        { pick j i; exact Hk. }
      * intros g k. pick k i; [cbn; intros [Q|Q]; [now destruct (Hp1 g) as (_ & N & _)|now destruct (Hp1 g) as (_ & _ & N & _)]|apply Hs].
      * intros g k. pick k i; [cbn; apply Hp1|apply Hd].
      * intros j g Hg. assert (B : (exists k, busy g (at_ (jobs s k)) = true) -> exists k, busy g (at_ (upd (jobs s) i (mkJob l p (brk (jobs s i)) true) k)) = true).
        { intros [k Hk]. exists k. pick k i; [rewrite P in Hk; discriminate|exact Hk]. }
        destruct (Ht j g Hg) as [Q|[Q|[Q|Q]]]; [|..|auto|auto].
        { pick j i; cbn; [|auto]. rewrite T in Q. destruct Q as [->|Q]; [right; left; apply (Hp1 g)|auto]. }
        { pick j i; cbn; [rewrite P in Q; discriminate|auto]. }
    + (* Loading *)
      destruct (npy s f) eqn:N; injection E as <-.
      1,2: left; exists i; cbn; now rewrite upd_eq.
      right. split; cbn.
      * intros g Hg. destruct (Hp g Hg) as [k Hk]. exists k. pick k i; [congruence|exact Hk].
      * intros g Hg. destruct (Hl g Hg) as [[k Hk]|Hk]; [left; exists k|right; intros j; specialize (Hk j)].
        { pick k i; [rewrite P in Hk; discriminate|exact Hk]. }
        { pick j i; exact Hk. }
      * intros g k. pick k i; [cbn; intros [Q|Q]; discriminate|apply Hs].
      * intros g k. pick k i; [cbn; discriminate|apply Hd].
      * intros j g Hg. assert (B : (exists k, busy g (at_ (jobs s k)) = true) -> exists k, busy g (at_ (upd (jobs s) i (goto Next (jobs s i)) k)) = true).
        { intros [k Hk]. exists k. pick k i; [rewrite P in Hk; discriminate|exact Hk]. }
        destruct (Ht j g Hg) as [Q|[Q|[Q|Q]]]; [|..|auto|auto].
        { pick j i; cbn; auto. }
        { pick j i; cbn; [rewrite P in Q; cbn in Q; apply Nat.eqb_eq in Q; subst g; right; right; left; congruence|auto]. }
    + (* NoNpy *)
      destruct (lock s f && negb (brk (jobs s i))) eqn:L; injection E as <-; right.
      * apply andb_true_iff in L as [L1 L2]. apply negb_true_iff in L2.
        assert (BF : exists k, busy f (at_ (jobs s k)) = true) by (destruct (Hl f L1) as [Q|Q]; [exact Q|rewrite Q in L2; discriminate]).
        assert (B : forall g, (exists k, busy g (at_ (jobs s k)) = true) -> exists k, busy g (at_ (upd (jobs s) i (goto Next (jobs s i)) k)) = true).
        { intros g [k Hk]. exists k. pick k i; [rewrite P in Hk; discriminate|exact Hk]. }
        split; cbn.
        -- intros g Hg. destruct (Hp g Hg) as [k Hk]. exists k. pick k i; [congruence|exact Hk].
        -- intros g Hg. destruct (Hl g Hg) as [Q|Hk]; [left; auto|right; intros j; specialize (Hk j); pick j i; exact Hk].
        -- intros g k. pick k i; [cbn; intros [Q|Q]; discriminate|apply Hs].
        -- intros g k. pick k i; [cbn; discriminate|apply Hd].
        -- intros j g Hg. destruct (Ht j g Hg) as [Q|[Q|[Q|Q]]]; [|..|auto|auto 6].
           { pick j i; cbn; auto. }
           { pick j i; cbn; [rewrite P in Q; cbn in Q; apply Nat.eqb_eq in Q; subst g; auto 6|auto]. }
      * split; cbn.
        -- intros g Hg. destruct (Hp g Hg) as [k Hk]. exists k. pick k i; [congruence|exact Hk].
        -- intros g Hg. destruct (Hl g Hg) as [[k Hk]|Hk]; [left; exists k|right; intros j; specialize (Hk j)].
           { pick k i; [rewrite P in Hk; discriminate|exact Hk]. }
           { pick j i; exact Hk. }
        -- intros g k. pick k i; [cbn; intros [Q|Q]; discriminate|apply Hs].
        -- intros g k. pick k i; [cbn; discriminate|apply Hd].
        -- intros j g Hg. assert (B : (exists k, busy g (at_ (jobs s k)) = true) -> exists k, busy g (at_ (upd (jobs s) i (goto (NoLock f) (jobs s i)) k)) = true).
           { intros [k Hk]. exists k. pick k i; [rewrite P in Hk; discriminate|exact Hk]. }
           destruct (Ht j g Hg) as [Q|[Q|[Q|Q]]]; [|..|auto|auto].
           { pick j i; cbn; auto. }
           { pick j i; cbn; [rewrite P in Q; cbn in Q; auto|auto]. }
    + (* NoLock *)
      injection E as <-. right.
      assert (B : forall g, (exists k, busy g (at_ (jobs s k)) = true) -> exists k, busy g (at_ (upd (jobs s) i (goto (Locked f) (jobs s i)) k)) = true).
      { intros g [k Hk]. exists k. pick k i; [rewrite P in Hk; discriminate|exact Hk]. }
      split; cbn.
      * intros g Hg. destruct (Hp g Hg) as [k Hk]. exists k. pick k i; [congruence|exact Hk].
      * intros g Hg. destruct (Nat.eq_dec g f) as [->|Ne]; [left; exists i; rewrite upd_eq; cbn; apply Nat.eqb_refl|]. rewrite upd_neq in Hg by assumption.
        destruct (Hl g Hg) as [Q|Hk]; [left; auto|right; intros j; specialize (Hk j); pick j i; exact Hk].
      * intros g k. pick k i; [cbn; intros [Q|Q]; discriminate|apply Hs].
      * intros g k. pick k i; [cbn; discriminate|apply Hd].
      * intros j g Hg. destruct (Ht j g Hg) as [Q|[Q|[Q|Q]]]; [|..|auto|auto 6].
        { pick j i; cbn; auto. }
        { pick j i; cbn; [rewrite P in Q; cbn in Q; auto|auto]. }
    + (* Locked *)
      injection E as <-. right.
      assert (B : forall g, (exists k, busy g (at_ (jobs s k)) = true) -> exists k, busy g (at_ (upd (jobs s) i (goto (Made f) (jobs s i)) k)) = true).
      { intros g [k Hk]. exists k. pick k i; [rewrite P in Hk; exact Hk|exact Hk]. }
      split; cbn.
      * intros g Hg. destruct (Hp g Hg) as [k Hk]. exists k. pick k i; [congruence|exact Hk].
      * intros g Hg. destruct (Hl g Hg) as [Q|Hk]; [left; auto|right; intros j; specialize (Hk j); pick j i; exact Hk].
      * intros g k. pick k i; [cbn; intros [Q|Q]; discriminate|apply Hs].
      * intros g k. pick k i; [cbn; discriminate|apply Hd].
      * intros j g Hg. destruct (Ht j g Hg) as [Q|[Q|[Q|Q]]]; [|..|auto|auto 6].
        { pick j i; cbn; auto. }
        { pick j i; cbn; [rewrite P in Q; cbn in Q; auto|auto]. }
    + (* Made *)
      injection E as <-. right.
      assert (B : forall g, (exists k, busy g (at_ (jobs s k)) = true) -> exists k, busy g (at_ (upd (jobs s) i (goto (Saving f) (jobs s i)) k)) = true).
      { intros g [k Hk]. exists k. pick k i; [rewrite P in Hk; exact Hk|exact Hk]. }
      assert (NA : forall g, npy s g <> Absent -> upd (npy s) f Partial g <> Absent) by (intros g Hg; pick g f; [discriminate|exact Hg]).
      split; cbn.
      * intros g. destruct (Nat.eq_dec g f) as [->|Ne]; [intros _; exists i; now rewrite upd_eq|]. rewrite upd_neq by assumption. intros Hg. destruct (Hp g Hg) as [k Hk]. exists k. pick k i; [congruence|exact Hk].
      * intros g Hg. destruct (Hl g Hg) as [Q|Hk]; [left; auto|right; intros j; specialize (Hk j); pick j i; exact Hk].
      * intros g k. destruct (Nat.eq_dec k i) as [->|Nk]; [rewrite upd_eq; cbn; intros [Q|Q]; [injection Q as <-; rewrite upd_eq; discriminate|discriminate]|rewrite upd_neq by assumption; intros Q; eapply NA, Hs, Q].
      * intros g k. destruct (Nat.eq_dec k i) as [->|Nk]; [rewrite upd_eq; cbn; discriminate|rewrite upd_neq by assumption; intros Q; eapply NA, Hd, Q].
      * intros j g Hg. destruct (Ht j g Hg) as [Q|[Q|[Q|Q]]]; [|..|auto|auto 6].
        { destruct (Nat.eq_dec j i) as [->|Nj]; [rewrite upd_eq|rewrite upd_neq by assumption]; cbn; auto. }
        { destruct (Nat.eq_dec j i) as [->|Nj]; [rewrite upd_eq|rewrite upd_neq by assumption]; cbn; [rewrite P in Q; cbn in Q; auto|auto]. }
    + (* Saving *)
      injection E as <-. right.
      assert (B : forall g, (exists k, busy g (at_ (jobs s k)) = true) -> exists k, busy g (at_ (upd (jobs s) i (goto (Saved f) (jobs s i)) k)) = true).
      { intros g [k Hk]. exists k. pick k i; [rewrite P in Hk; exact Hk|exact Hk]. }
      assert (NA : forall g, npy s g <> Absent -> upd (npy s) f Complete g <> Absent) by (intros g Hg; pick g f; [discriminate|exact Hg]).
      split; cbn.
      * intros g. destruct (Nat.eq_dec g f) as [->|Ne]; [rewrite upd_eq; discriminate|]. rewrite upd_neq by assumption. intros Hg. destruct (Hp g Hg) as [k Hk]. exists k. pick k i; [congruence|exact Hk].
      * intros g Hg. destruct (Hl g Hg) as [Q|Hk]; [left; auto|right; intros j; specialize (Hk j); pick j i; exact Hk].
      * intros g k. destruct (Nat.eq_dec k i) as [->|Nk]; [rewrite upd_eq; cbn; intros [Q|Q]; [discriminate|injection Q as <-; rewrite upd_eq; discriminate]|rewrite upd_neq by assumption; intros Q; eapply NA, Hs, Q].
      * intros g k. destruct (Nat.eq_dec k i) as [->|Nk]; [rewrite upd_eq; cbn; discriminate|rewrite upd_neq by assumption; intros Q; eapply NA, Hd, Q].
      * intros j g Hg. destruct (Ht j g Hg) as [Q|[Q|[Q|Q]]]; [|..|auto|auto 6].
        { destruct (Nat.eq_dec j i) as [->|Nj]; [rewrite upd_eq|rewrite upd_neq by assumption]; cbn; auto. }
        { destruct (Nat.eq_dec j i) as [->|Nj]; [rewrite upd_eq|rewrite upd_neq by assumption]; cbn; [rewrite P in Q; cbn in Q; auto|auto]. }
    + (* Saved *)
      destruct (lock s f) eqn:L; injection E as <-; [right|left; exists i; cbn; now rewrite upd_eq].
      assert (NF : npy s f <> Absent) by (apply (Hs f i); now right).
      assert (B : forall g, g <> f -> (exists k, busy g (at_ (jobs s k)) = true) -> exists k, busy g (at_ (upd (jobs s) i (goto Next (jobs s i)) k)) = true).
      { intros g Hg [k Hk]. exists k. pick k i; [rewrite P in Hk; cbn in Hk; apply Nat.eqb_eq in Hk; congruence|exact Hk]. }
      split; cbn.
      * intros g Hg. destruct (Hp g Hg) as [k Hk]. exists k. pick k i; [congruence|exact Hk].
      * intros g. destruct (Nat.eq_dec g f) as [->|Ne]; [rewrite upd_eq; discriminate|]. rewrite upd_neq by assumption. intros Hg. destruct (Hl g Hg) as [Q|Hk]; [left; auto|right; intros j; specialize (Hk j); pick j i; exact Hk].
      * intros g k. pick k i; [cbn; intros [Q|Q]; discriminate|apply Hs].
      * intros g k. pick k i; [cbn; discriminate|apply Hd].
      * intros j g Hg. destruct (Nat.eq_dec g f) as [->|Ne]; [auto|]. destruct (Ht j g Hg) as [Q|[Q|[Q|Q]]]; [|..|auto|auto 6].
        { pick j i; cbn; auto. }
        { pick j i; cbn; [rewrite P in Q; cbn in Q; apply Nat.eqb_eq in Q; congruence|auto]. }
Qed.
Lemma inv_start s : starts lists s -> (forall f, lock s f = false) \/ (forall j, brk (jobs s j) = true) -> inv' s.
Proof.
  intros [Sj Sn _] HL. right. split.
  - intros f Hf. now apply Sn in Hf.
  - intros f Hf. destruct HL as [HL|HL]; [rewrite HL in Hf; discriminate|auto].
  - intros f k. rewrite (proj1 (proj2 (Sj k))). intros [Q|Q]; discriminate.
  - intros f k. rewrite (proj1 (proj2 (Sj k))). discriminate.
  - intros j f Hf. left. now rewrite (proj1 (Sj j)).
Qed.
End Done.

(** For any number of jobs and any schedule: if every job goes to its end, then every requested sample file exists and is
    complete.  The jobs start with no lock files, or all with break_locks. *)
Theorem C44_all_finished_complete : forall lists s es s', starts lists s -> (forall f, lock s f = false) \/ (forall j, brk (jobs s j) = true) ->
  run es s = Some s' -> (forall j, finished (jobs s' j)) -> forall j f, In f (lists j) -> npy s' f = Complete.
Proof.
  intros lists s es s' S L R F j f Hf. assert (I : inv' lists s') by (eapply run_inv; [intros; eapply inv_step; eassumption|apply inv_start; eassumption|exact R]).
  destruct I as [[k Hk]|[Hp _ _ _ Ht]]; [destruct (F k) as (A & _); congruence|].
  assert (N : npy s' f <> Absent).
  { destruct (Ht j f Hf) as [Q|[Q|[Q|[k Q]]]]; [destruct (F j) as (_ & _ & T); rewrite T in Q; destruct Q|destruct (F j) as (_ & T & _); rewrite T in Q; discriminate|exact Q|destruct (F k) as (_ & T & _); rewrite T in Q; discriminate]. }
  destruct (npy s' f) eqn:E; [congruence| |reflexivity]. destruct (Hp f E) as [k Hk]. destruct (F k) as (_ & T & _). congruence.
Qed.
Print Assumptions C44_all_finished_complete.

(** * Exclusive schedules: each file is produced at most once *)
Record xinv (s : sys) : Prop := mkX {
  x_brk : forall j, brk (jobs s j) = false;
  x_one : forall f k k', busy f (at_ (jobs s k)) = true -> busy f (at_ (jobs s k')) = true -> k = k';
  x_own : forall f, lock s f = true <-> exists k, busy f (at_ (jobs s k)) = true;
  x_pc : forall f k, match at_ (jobs s k) with
    | Locked g => g = f -> npy s f = Absent /\ made s f = 0
    | Made g => g = f -> npy s f = Absent /\ made s f = 1
    | Saving g => g = f -> npy s f = Partial /\ made s f = 1
    | Saved g => g = f -> npy s f = Complete /\ made s f = 1
    | NoNpy g => g = f -> alive (jobs s k) = true -> npy s f = Absent
    | NoLock g => g = f -> alive (jobs s k) = true -> npy s f = Absent /\ lock s f = false
    | _ => True end;
  x_free : forall f, lock s f = false -> (npy s f = Absent /\ made s f = 0) \/ (npy s f = Complete /\ made s f <= 1) }.

Ltac pick k i := destruct (Nat.eq_dec k i) as [->|?]; [rewrite ?upd_eq in *|rewrite ?upd_neq in * by assumption].
Lemma xinv_job i j s : (* a change of one job that is neither busy before nor after, and touches no file *)
  xinv s -> brk j = false -> (forall f, busy f (at_ (jobs s i)) = false) -> (forall f, busy f (at_ j) = false) ->
  (forall f, match at_ j with NoNpy g => g = f -> alive j = true -> npy s f = Absent | NoLock g => g = f -> alive j = true -> npy s f = Absent /\ lock s f = false | _ => True end) ->
  xinv (set_job i j s).
Proof.
  intros [Xb X1 Xo Xp Xf] Hb B0 B1 Hp. split; cbn.
  - intros k. pick k i; auto.
  - intros f k k'. pick k i; [rewrite B1; discriminate|]. pick k' i; [rewrite B1; discriminate|]. apply X1.
  - intros f. rewrite Xo. split; intros [k Hk]; exists k; pick k i; [rewrite B0 in Hk; discriminate|exact Hk|rewrite B1 in Hk; discriminate|exact Hk].
  - intros f k. pick k i; [|apply Xp]. specialize (B1 f). specialize (Hp f). destruct (at_ j) as [|g|g|g|g|g|g|g]; auto; cbn in B1; intros ->; rewrite Nat.eqb_refl in B1; discriminate.
  - exact Xf.
Qed.
Lemma xinv_dead i s : xinv s -> xinv (set_job i (kill (jobs s i)) s).
Proof.
  intros [Xb X1 Xo Xp Xf]. assert (Q : forall k, at_ (upd (jobs s) i (kill (jobs s i)) k) = at_ (jobs s k)) by (intros k; pick k i; reflexivity). split; cbn.
  - intros k. pick k i; cbn; apply Xb.
  - intros f k k'. rewrite !Q. apply X1.
  - intros f. rewrite Xo. split; intros [k Hk]; exists k; rewrite Q in *; exact Hk.
  - intros f k. rewrite Q. specialize (Xp f k). pick k i; [|exact Xp]. destruct (at_ (jobs s i)); auto; cbn; discriminate.
  - exact Xf.
Qed.
Lemma xinv_step e s s' : xinv s -> (forall k, k <> actor e -> checking (jobs s k) = false) -> ev e s = Some s' -> xinv s'.
Proof.
  intros X Hx E. destruct e as [i|i]; cbn in E, Hx.
  2: { destruct (alive (jobs s i)); [|discriminate]. injection E as <-. now apply xinv_dead. }
  unfold act in E. destruct (alive (jobs s i)) eqn:A; [|discriminate]. cbn [negb] in E.
  destruct (at_ (jobs s i)) as [|f|f|f|f|f|f|f] eqn:P.
  - destruct (todo (jobs s i)) as [|f l]; [discriminate|]. injection E as <-. apply xinv_job; cbn; auto.
    + apply (x_brk s X).
    + intros g. now rewrite P.
    + intros g. destruct (npy s f); reflexivity.
    + intros g. destruct (npy s f) eqn:N; auto. intros <- _. exact N.
  - destruct (npy s f); injection E as <-; [now apply xinv_dead|now apply xinv_dead|]. apply xinv_job; cbn; auto; [apply (x_brk s X)|intros g; now rewrite P].
  - destruct (lock s f && negb (brk (jobs s i))) eqn:L; injection E as <-.
    + apply xinv_job; cbn; auto; [apply (x_brk s X)|intros g; now rewrite P].
    + apply xinv_job; cbn; auto; [apply (x_brk s X)|intros g; now rewrite P|]. intros g <- Ha. pose proof (x_pc s X f i) as Q. rewrite P in Q. split; [now apply Q|].
      rewrite (x_brk s X i), andb_true_r in L. exact L.
  - (* NoLock *) injection E as <-. pose proof (x_pc s X f i) as Q. rewrite P in Q. destruct (Q eq_refl A) as [NA NL]. destruct X as [Xb X1 Xo Xp Xf].
    assert (NB : forall k, busy f (at_ (jobs s k)) = false) by (intros k; destruct (busy f (at_ (jobs s k))) eqn:Bk; [|reflexivity]; assert (lock s f = true) by (apply Xo; now exists k); congruence).
    assert (M0 : made s f = 0) by (destruct (Xf f NL) as [[_ M]|[M _]]; [exact M|congruence]). split; cbn.
    + intros k. pick k i; cbn; apply Xb.
    + intros g k k'. pick k i; pick k' i; cbn; auto.
      * intros Eg. apply Nat.eqb_eq in Eg as <-. now rewrite NB.
      * intros Eg Eg'. apply Nat.eqb_eq in Eg' as <-. now rewrite NB in Eg.
      * apply X1.
    + intros g. destruct (Nat.eq_dec g f) as [->|Ne].
      * rewrite upd_eq. split; [intros _; exists i; rewrite upd_eq; cbn; apply Nat.eqb_refl|reflexivity].
      * rewrite upd_neq by assumption. rewrite Xo. split; intros [k Hk]; exists k; pick k i; auto; [rewrite P in Hk; discriminate|cbn in Hk; apply Nat.eqb_eq in Hk; congruence].
    + intros g k. destruct (Nat.eq_dec k i) as [->|Nk]; [rewrite upd_eq; cbn; intros <-; auto|rewrite (upd_neq _ _ _ k) by assumption].
      specialize (Xp g k). specialize (Hx k Nk). unfold checking in Hx. destruct (at_ (jobs s k)); auto. intros Eg Ha. rewrite Ha in Hx. discriminate.
    + intros g. destruct (Nat.eq_dec g f) as [->|Ne]; [rewrite upd_eq; discriminate|rewrite upd_neq by assumption; apply Xf].
  - (* Locked *) injection E as <-. pose proof (x_pc s X f i) as Q. rewrite P in Q. destruct (Q eq_refl) as [NA M0]. destruct X as [Xb X1 Xo Xp Xf].
    assert (Bi : busy f (at_ (jobs s i)) = true) by (rewrite P; cbn; apply Nat.eqb_refl).
    assert (U : forall k, k <> i -> busy f (at_ (jobs s k)) = false) by (intros k Hk; destruct (busy f (at_ (jobs s k))) eqn:Bk; [|reflexivity]; now apply (X1 f k i Bk) in Bi).
    assert (BE : forall g k, busy g (at_ (upd (jobs s) i (goto (Made f) (jobs s i)) k)) = busy g (at_ (jobs s k))) by (intros g k; pick k i; [rewrite P|]; reflexivity).
    split; cbn.
    + intros k. pick k i; cbn; apply Xb.
    + intros g k k'. rewrite !BE. apply X1.
    + intros g. rewrite Xo. split; intros [k Hk]; exists k; rewrite BE in *; exact Hk.
    + intros g k. destruct (Nat.eq_dec k i) as [->|Nk]; [rewrite upd_eq; cbn; intros <-; rewrite upd_eq; auto|rewrite (upd_neq _ _ _ k) by assumption].
      specialize (Xp g k). specialize (U k Nk). destruct (Nat.eq_dec g f) as [->|Ng]; [|rewrite (upd_neq _ _ _ g) by assumption; exact Xp].
      destruct (at_ (jobs s k)); auto; cbn in U; intros ->; rewrite Nat.eqb_refl in U; discriminate.
    + intros g Hg. destruct (Nat.eq_dec g f) as [->|Ng]; [assert (lock s f = true) by (apply Xo; now exists i); congruence|rewrite upd_neq by assumption; auto].
  - (* Made *) injection E as <-. pose proof (x_pc s X f i) as Q. rewrite P in Q. destruct (Q eq_refl) as [NA M0]. destruct X as [Xb X1 Xo Xp Xf].
    assert (Bi : busy f (at_ (jobs s i)) = true) by (rewrite P; cbn; apply Nat.eqb_refl).
    assert (U : forall k, k <> i -> busy f (at_ (jobs s k)) = false) by (intros k Hk; destruct (busy f (at_ (jobs s k))) eqn:Bk; [|reflexivity]; now apply (X1 f k i Bk) in Bi).
    assert (BE : forall g k, busy g (at_ (upd (jobs s) i (goto (Saving f) (jobs s i)) k)) = busy g (at_ (jobs s k))) by (intros g k; pick k i; [rewrite P|]; reflexivity).
    split; cbn.
    + intros k. pick k i; cbn; apply Xb.
    + intros g k k'. rewrite !BE. apply X1.
    + intros g. rewrite Xo. split; intros [k Hk]; exists k; rewrite BE in *; exact Hk.
    + intros g k. destruct (Nat.eq_dec k i) as [->|Nk]; [rewrite upd_eq; cbn; intros <-; rewrite upd_eq; auto|rewrite (upd_neq _ _ _ k) by assumption].
      specialize (Xp g k). specialize (U k Nk). specialize (Hx k Nk). unfold checking in Hx. destruct (Nat.eq_dec g f) as [->|Ng]; [|rewrite (upd_neq _ _ _ g) by assumption; exact Xp].
      destruct (at_ (jobs s k)); auto; cbn in U; try (intros ->; rewrite Nat.eqb_refl in U; discriminate); intros _ Ha; rewrite Ha in Hx; discriminate.
    + intros g Hg. destruct (Nat.eq_dec g f) as [->|Ng]; [assert (lock s f = true) by (apply Xo; now exists i); congruence|rewrite upd_neq by assumption; auto].
  - (* Saving *) injection E as <-. pose proof (x_pc s X f i) as Q. rewrite P in Q. destruct (Q eq_refl) as [NA M0]. destruct X as [Xb X1 Xo Xp Xf].
    assert (Bi : busy f (at_ (jobs s i)) = true) by (rewrite P; cbn; apply Nat.eqb_refl).
    assert (U : forall k, k <> i -> busy f (at_ (jobs s k)) = false) by (intros k Hk; destruct (busy f (at_ (jobs s k))) eqn:Bk; [|reflexivity]; now apply (X1 f k i Bk) in Bi).
    assert (BE : forall g k, busy g (at_ (upd (jobs s) i (goto (Saved f) (jobs s i)) k)) = busy g (at_ (jobs s k))) by (intros g k; pick k i; [rewrite P|]; reflexivity).
    split; cbn.
    + intros k. pick k i; cbn; apply Xb.
    + intros g k k'. rewrite !BE. apply X1.
    + intros g. rewrite Xo. split; intros [k Hk]; exists k; rewrite BE in *; exact Hk.
    + intros g k. destruct (Nat.eq_dec k i) as [->|Nk]; [rewrite upd_eq; cbn; intros <-; rewrite upd_eq; auto|rewrite (upd_neq _ _ _ k) by assumption].
      specialize (Xp g k). specialize (U k Nk). specialize (Hx k Nk). unfold checking in Hx. destruct (Nat.eq_dec g f) as [->|Ng]; [|rewrite (upd_neq _ _ _ g) by assumption; exact Xp].
      destruct (at_ (jobs s k)); auto; cbn in U; try (intros ->; rewrite Nat.eqb_refl in U; discriminate); intros _ Ha; rewrite Ha in Hx; discriminate.
    + intros g Hg. destruct (Nat.eq_dec g f) as [->|Ng]; [assert (lock s f = true) by (apply Xo; now exists i); congruence|rewrite upd_neq by assumption; auto].
  - (* Saved *) destruct (lock s f) eqn:L; injection E as <-; [|now apply xinv_dead]. pose proof (x_pc s X f i) as Q. rewrite P in Q. destruct (Q eq_refl) as [NA M0]. destruct X as [Xb X1 Xo Xp Xf].
    assert (Bi : busy f (at_ (jobs s i)) = true) by (rewrite P; cbn; apply Nat.eqb_refl).
    assert (U : forall k, k <> i -> busy f (at_ (jobs s k)) = false) by (intros k Hk; destruct (busy f (at_ (jobs s k))) eqn:Bk; [|reflexivity]; now apply (X1 f k i Bk) in Bi).
    split; cbn.
    + intros k. pick k i; cbn; apply Xb.
    + intros g k k'. pick k i; [discriminate|]. pick k' i; [discriminate|]. apply X1.
    + intros g. destruct (Nat.eq_dec g f) as [->|Ng].
      * rewrite upd_eq. split; [discriminate|]. intros [k Hk]. pick k i; [discriminate|]. rewrite U in Hk by assumption. discriminate.
      * rewrite upd_neq by assumption. rewrite Xo. split; intros [k Hk]; exists k; pick k i; auto; [rewrite P in Hk; cbn in Hk; apply Nat.eqb_eq in Hk; congruence|discriminate].
    + intros g k. destruct (Nat.eq_dec k i) as [->|Nk]; [now rewrite upd_eq|rewrite (upd_neq _ _ _ k) by assumption].
      specialize (Xp g k). specialize (Hx k Nk). unfold checking in Hx. destruct (at_ (jobs s k)); auto. intros _ Ha. rewrite Ha in Hx. discriminate.
    + intros g Hg. destruct (Nat.eq_dec g f) as [->|Ng]; [right; split; [exact NA|lia]|rewrite upd_neq in Hg by assumption; auto].
Qed.
Lemma xinv_run es : forall s s', xinv s -> exclusive es s -> run es s = Some s' -> xinv s'.
Proof.
  induction es as [|e es IH]; cbn; intros s s' X Hx R; [now injection R as <-|]. destruct Hx as [H1 H2]. destruct (ev e s) as [s1|] eqn:E; [|discriminate].
  eapply IH; [|exact H2|exact R]. eapply xinv_step; eassumption.
Qed.
Lemma xinv_start lists s : starts lists s -> (forall f, lock s f = false) -> (forall j, brk (jobs s j) = false) -> xinv s.
Proof.
  intros [Sj Sn Sm] L B. assert (P : forall k, at_ (jobs s k) = Next) by (intros k; apply Sj). split; auto.
  - intros f k k'. rewrite P. discriminate.
  - intros f. rewrite L. split; [discriminate|]. intros [k Hk]. rewrite P in Hk. discriminate.
  - intros f k. now rewrite P.
  - intros f _. rewrite Sm. destruct (npy s f) eqn:N; auto. now apply Sn in N.
Qed.
(** If no other job acts between the first look of a job at a sample file and its creation of the lock (which the code does
    not ensure), and whatever jobs are killed: each file is produced at most once, by one job at a time, and a file that
    exists without its lock is complete. *)
Theorem C44_exclusive_once : forall lists s es s', starts lists s -> (forall f, lock s f = false) -> (forall j, brk (jobs s j) = false) ->
  run es s = Some s' -> exclusive es s ->
  forall f, made s' f <= 1 /\ (forall j k, busy f (at_ (jobs s' j)) = true -> busy f (at_ (jobs s' k)) = true -> j = k) /\ (npy s' f <> Absent -> lock s' f = false -> npy s' f = Complete).
Proof.
  intros lists s es s' S L B R Hx f. pose proof (xinv_run es s s' (xinv_start lists s S L B) Hx R) as X. split; [|split].
  - destruct (lock s' f) eqn:E.
    + apply (x_own s' X) in E as [k Hk]. pose proof (x_pc s' X f k) as Q. destruct (at_ (jobs s' k)); try discriminate; cbn in Hk; apply Nat.eqb_eq in Hk; destruct (Q Hk); lia.
    + destruct (x_free s' X f E) as [[_ M]|[_ M]]; lia.
  - apply (x_one s' X).
  - intros Hn E. destruct (x_free s' X f E) as [[N _]|[N _]]; [congruence|exact N].
Qed.
Print Assumptions C44_exclusive_once.

(** * What goes wrong otherwise *)
(** two jobs that have the file 0 to produce (the others have nothing to do); nothing on disk *)
Definition two_jobs (b : bool) : sys := mkSys (fun _ => Absent) (fun _ => false) (fun i => mkJob (if Nat.ltb i 2 then [0] else []) Next b true) (fun _ => 0).
(** a run with some outcome, by computation *)
Lemma run_check es s (b : sys -> bool) : match run es s with Some s' => b s' | None => false end = true -> exists s', run es s = Some s' /\ b s' = true.
Proof. destruct (run es s) as [s'|]; [eauto|discriminate]. Qed.
Fixpoint xcheck (es : list event) (s : sys) : bool :=
  match es with
  | [] => true
  | e :: es' => (Nat.eqb (actor e) 0 && negb (checking (jobs s 1)) || Nat.eqb (actor e) 1 && negb (checking (jobs s 0))) && match ev e s with Some s' => xcheck es' s' | None => true end
  end.
Lemma ev_other e s s' k : ev e s = Some s' -> k <> actor e -> jobs s' k = jobs s k.
Proof.
  intros E Hk. destruct e as [i|i]; cbn in *.
  - unfold act in E. destruct (alive (jobs s i)); [|discriminate]. cbn [negb] in E.
    destruct (at_ (jobs s i)); try destruct (todo (jobs s i)); try destruct (npy s f); try destruct (lock s f && negb (brk (jobs s i))); try destruct (lock s f);
      try discriminate; injection E as <-; cbn; now rewrite upd_neq.
  - destruct (alive (jobs s i)); [|discriminate]. injection E as <-. cbn. now rewrite upd_neq.
Qed.
Lemma xcheck_ok es : forall s, (forall k, 2 <= k -> checking (jobs s k) = false) -> xcheck es s = true -> exclusive es s.
Proof.
  induction es as [|e es IH]; cbn; intros s H C; [exact I|]. apply andb_true_iff in C as [C1 C2].
  assert (A : actor e = 0 /\ checking (jobs s 1) = false \/ actor e = 1 /\ checking (jobs s 0) = false).
  { apply orb_true_iff in C1 as [C1|C1]; apply andb_true_iff in C1 as [Q1 Q2]; apply Nat.eqb_eq in Q1; apply negb_true_iff in Q2; auto. }
  split.
  - intros k Hk. destruct k as [|[|k]]; [| |apply H; lia]; destruct A as [[Ea A]|[Ea A]]; auto; congruence.
  - destruct (ev e s) as [s'|] eqn:E; [|exact I]. apply IH; [|exact C2]. intros k Hk. rewrite (ev_other e s s' k E); [now apply H|]. destruct A as [[Ea _]|[Ea _]]; rewrite Ea; lia.
Qed.
Lemma two_jobs_start b : starts (fun i => if Nat.ltb i 2 then [0] else []) (two_jobs b).
Proof. split; cbn; auto; discriminate. Qed.
(** both jobs look before either creates the lock: both produce the sample, and the second dies when it removes the lock *)
Theorem C44_race_refuted : exists es s', run es (two_jobs false) = Some s' /\ made s' 0 = 2 /\ alive (jobs s' 1) = false /\ (forall i, ~ In (Crash i) es).
Proof.
  set (es := [Run 0; Run 0; Run 1; Run 1; Run 0; Run 1; Run 0; Run 1; Run 0; Run 0; Run 0; Run 1; Run 1; Run 1]). exists es.
  destruct (run_check es (two_jobs false) (fun t => Nat.eqb (made t 0) 2 && negb (alive (jobs t 1)))) as (s' & R & B); [vm_compute; reflexivity|]. exists s'. split; [exact R|].
  apply andb_true_iff in B as [B1 B2]. split; [now apply Nat.eqb_eq|]. split; [now apply negb_true_iff|].
  intros i H. cbn in H. repeat (destruct H as [H|H]; [discriminate|]). exact H.
Qed.
Print Assumptions C44_race_refuted.
(** even if looking for the lock and creating it were one action: job 1 saw no sample file, job 0 produces it and removes the
    lock, job 1 sees no lock and produces it again *)
Theorem C44_stale_look_refuted : exists es s', es = [Run 1] ++ repeat (Run 0) 7 ++ [Run 1; Run 1] ++ [Run 1] /\ run es (two_jobs false) = Some s' /\
  made s' 0 = 2 /\ npy s' 0 = Complete.
Proof.
  eexists. edestruct (run_check ([Run 1] ++ repeat (Run 0) 7 ++ [Run 1; Run 1] ++ [Run 1]) (two_jobs false) (fun t => Nat.eqb (made t 0) 2 && match npy t 0 with Complete => true | _ => false end)) as (s' & R & B); [vm_compute; reflexivity|].
  exists s'. split; [reflexivity|]. split; [exact R|]. apply andb_true_iff in B as [B1 B2]. split; [now apply Nat.eqb_eq|]. destruct (npy s' 0); congruence.
Qed.
Print Assumptions C44_stale_look_refuted.
(** a job that finds the sample file while another is filling it dies, although nothing went wrong *)
Theorem C44_load_incomplete_refuted : exists es s', run es (two_jobs false) = Some s' /\ alive (jobs s' 1) = false /\ alive (jobs s' 0) = true /\ (forall i, ~ In (Crash i) es) /\ exclusive es (two_jobs false).
Proof.
  set (es := [Run 0; Run 0; Run 0; Run 0; Run 0; Run 1; Run 1]). exists es.
  destruct (run_check es (two_jobs false) (fun t => alive (jobs t 0) && negb (alive (jobs t 1)))) as (s' & R & B); [vm_compute; reflexivity|]. exists s'. split; [exact R|].
  apply andb_true_iff in B as [B1 B2]. split; [now apply negb_true_iff|]. split; [exact B1|]. split.
  - intros i H. cbn in H. repeat (destruct H as [H|H]; [discriminate|]). exact H.
  - apply xcheck_ok; [reflexivity|vm_compute; reflexivity].
Qed.
Print Assumptions C44_load_incomplete_refuted.
(** a job killed after it created the lock: no job without break_locks ever produces the file *)
Theorem C44_stale_lock_refuted : forall s f, lock s f = true -> npy s f = Absent -> (forall j, alive (jobs s j) = true -> brk (jobs s j) = false /\ at_ (jobs s j) = Next) ->
  forall es s', run es s = Some s' -> npy s' f = Absent /\ lock s' f = true.
Proof.
  intros s f L N J es s' R.
  set (P := fun t : sys => lock t f = true /\ npy t f = Absent /\ forall j, alive (jobs t j) = true -> brk (jobs t j) = false /\ busy f (at_ (jobs t j)) = false /\ at_ (jobs t j) <> NoLock f).
  assert (G : P s') ; [|destruct G as (A & B & _); auto].
  eapply (run_inv P); [|split; [exact L|split; [exact N|]]; intros j Hj; destruct (J j Hj) as [Q1 Q2]; rewrite Q2; repeat split; auto; discriminate|exact R]. clear.
  intros e s s' (L & N & J) E. destruct e as [i|i]; cbn in E.
  2: { destruct (alive (jobs s i)); [|discriminate]. injection E as <-. split; [exact L|]. split; [exact N|]. cbn. intros j. pick j i; [discriminate|apply J]. }
  unfold act in E. destruct (alive (jobs s i)) eqn:A; [|discriminate]. cbn [negb] in E. destruct (J i A) as (B & U & NL).
  assert (D : forall x, (alive x = true -> brk x = false /\ busy f (at_ x) = false /\ at_ x <> NoLock f) -> P (set_job i x s)).
  { intros x Hx. split; [exact L|]. split; [exact N|]. cbn. intros j. pick j i; [exact Hx|apply J]. }
  destruct (at_ (jobs s i)) as [|g|g|g|g|g|g|g] eqn:Q.
  - destruct (todo (jobs s i)) as [|h l]; [discriminate|]. injection E as <-. apply D. cbn. intros _. rewrite B. destruct (npy s h); repeat split; try reflexivity; discriminate.
  - destruct (npy s g); injection E as <-; apply D; cbn; try discriminate. intros _. rewrite B. repeat split; discriminate.
  - rewrite B in E. cbn in E. rewrite andb_true_r in E. destruct (lock s g) eqn:Lg; injection E as <-; apply D; cbn; intros _; rewrite B; repeat split; try discriminate. intros [= ->]. congruence.
  - injection E as <-. assert (Ng : g <> f) by congruence. split; cbn; [destruct (Nat.eq_dec f g); [congruence|now rewrite upd_neq]|]. split; [exact N|]. intros j. pick j i; [|apply J]. cbn. intros _. rewrite B. repeat split; [now apply Nat.eqb_neq|discriminate].
  - injection E as <-. cbn in U. split; [exact L|]. split; [exact N|]. cbn. intros j. pick j i; [|apply J]. cbn. intros _. rewrite B. repeat split; [exact U|discriminate].
  - injection E as <-. cbn in U. assert (Ng : f <> g) by (intros ->; rewrite Nat.eqb_refl in U; discriminate). split; [exact L|]. split; [cbn; now rewrite upd_neq|]. cbn. intros j. pick j i; [|apply J]. cbn. intros _. rewrite B. repeat split; [exact U|discriminate].
  - injection E as <-. cbn in U. assert (Ng : f <> g) by (intros ->; rewrite Nat.eqb_refl in U; discriminate). split; [exact L|]. split; [cbn; now rewrite upd_neq|]. cbn. intros j. pick j i; [|apply J]. cbn. intros _. rewrite B. repeat split; [exact U|discriminate].
  - cbn in U. assert (Ng : f <> g) by (intros ->; rewrite Nat.eqb_refl in U; discriminate). destruct (lock s g); injection E as <-; [|apply D; discriminate].
    split; [cbn; now rewrite upd_neq|]. split; [exact N|]. cbn. intros j. pick j i; [|apply J]. cbn. intros _. rewrite B. repeat split; discriminate.
Qed.
Print Assumptions C44_stale_lock_refuted.
(** such a state is reached: job 0 is killed while it generates *)
Example C44_stale_lock_reached : exists s, run [Run 0; Run 0; Run 0; Crash 0] (two_jobs false) = Some s /\ lock s 0 = true /\ npy s 0 = Absent /\
  forall j, alive (jobs s j) = true -> brk (jobs s j) = false /\ at_ (jobs s j) = Next.
Proof. eexists. split; [vm_compute; reflexivity|]. split; [reflexivity|]. split; [reflexivity|]. intros [|j]; cbn; [discriminate|auto]. Qed.
(** a job killed while it fills the sample file: the file is never repaired, and every job that needs it dies, even with break_locks *)
Theorem C44_incomplete_file_refuted : forall s f, npy s f = Partial -> (forall j, alive (jobs s j) = true -> at_ (jobs s j) = Next) ->
  forall es s', run es s = Some s' -> npy s' f = Partial /\ forall j, alive (jobs s' j) = true -> at_ (jobs s' j) = Next -> ~ (In f (todo (jobs s j)) /\ ~ In f (todo (jobs s' j))).
Proof.
  intros s f N J es s' R.
  set (P := fun t : sys => npy t f = Partial /\ forall j, alive (jobs t j) = true -> match at_ (jobs t j) with Next | Loading _ => True | p => holds f p = false end /\
                          (In f (todo (jobs s j)) -> In f (todo (jobs t j)) \/ at_ (jobs t j) = Loading f)).
  assert (G : P s').
  { eapply (run_inv P); [|split; [exact N|]; intros j Hj; rewrite (J j Hj); auto|exact R]. clear -s. intros e t t' (N & J) E. destruct e as [i|i]; cbn in E.
    2: { destruct (alive (jobs t i)); [|discriminate]. injection E as <-. split; [exact N|]. cbn. intros j. pick j i; [discriminate|apply J]. }
    unfold act in E. destruct (alive (jobs t i)) eqn:A; [|discriminate]. cbn [negb] in E. destruct (J i A) as (U & T).
    destruct (at_ (jobs t i)) as [|g|g|g|g|g|g|g] eqn:Q.
    - destruct (todo (jobs t i)) as [|h l] eqn:Tl; [discriminate|]. injection E as <-. split; [exact N|]. cbn. intros j. pick j i; [|apply J]. cbn. intros _. split.
      + destruct (npy t h) eqn:Nh; auto. cbn. apply Nat.eqb_neq. congruence.
      + intros Hi. destruct (T Hi) as [[->|Hl]|Hl]; [right; now rewrite N|auto|discriminate].
    - destruct (npy t g) eqn:Ng; injection E as <-; (split; [exact N|]); cbn; intros j; (pick j i; [|apply J]); cbn; try discriminate. intros _. split; [exact I|]. intros Hi. destruct (T Hi) as [Hl|Hl]; [auto|]. injection Hl as ->. congruence.
    - destruct (lock t g && negb (brk (jobs t i))); injection E as <-; (split; [exact N|]); cbn; intros j; (pick j i; [|apply J]); cbn; intros _; (split; [auto|]); intros Hi; (destruct (T Hi) as [Hl|Hl]; [auto|discriminate]).
    - injection E as <-; (split; [exact N|]); cbn; intros j; (pick j i; [|apply J]); cbn; intros _; (split; [auto|]); intros Hi; (destruct (T Hi) as [Hl|Hl]; [auto|discriminate]).
    - injection E as <-; (split; [exact N|]); cbn; intros j; (pick j i; [|apply J]); cbn; intros _; (split; [auto|]); intros Hi; (destruct (T Hi) as [Hl|Hl]; [auto|discriminate]).
    - cbn in U. assert (Ng : f <> g) by (intros ->; rewrite Nat.eqb_refl in U; discriminate). injection E as <-; (split; [cbn; now rewrite upd_neq|]); cbn; intros j; (pick j i; [|apply J]); cbn; intros _; (split; [auto|]); intros Hi; (destruct (T Hi) as [Hl|Hl]; [auto|discriminate]).
    - cbn in U. assert (Ng : f <> g) by (intros ->; rewrite Nat.eqb_refl in U; discriminate). injection E as <-; (split; [cbn; now rewrite upd_neq|]); cbn; intros j; (pick j i; [|apply J]); cbn; intros _; (split; [auto|]); intros Hi; (destruct (T Hi) as [Hl|Hl]; [auto|discriminate]).
    - destruct (lock t g); injection E as <-; (split; [exact N|]); cbn; intros j; (pick j i; [|apply J]); cbn; try discriminate; intros _; (split; [auto|]); intros Hi; (destruct (T Hi) as [Hl|Hl]; [auto|discriminate]). }
  destruct G as [GN GJ]. split; [exact GN|]. intros j Hj Hn [H1 H2]. destruct (proj2 (GJ j Hj) H1) as [Q|Q]; [auto|congruence].
Qed.
Print Assumptions C44_incomplete_file_refuted.
Example C44_incomplete_file_reached : exists s, run [Run 0; Run 0; Run 0; Run 0; Run 0; Crash 0] (two_jobs true) = Some s /\ npy s 0 = Partial /\
  forall j, alive (jobs s j) = true -> at_ (jobs s j) = Next.
Proof. eexists. split; [vm_compute; reflexivity|]. split; [reflexivity|]. intros [|j]; cbn; [discriminate|auto]. Qed.

(** * Recovery: one job with break_locks, alone, completes the production from any state of the directory without partial files *)
Theorem C44_break_locks_recovers : forall s i, alive (jobs s i) = true -> brk (jobs s i) = true -> at_ (jobs s i) = Next -> (forall f, npy s f <> Partial) ->
  exists n s', run (repeat (Run i) n) s = Some s' /\ finished (jobs s' i) /\ (forall f, npy s' f <> Partial) /\ (forall f, npy s f = Complete -> npy s' f = Complete) /\
  (forall f, In f (todo (jobs s i)) -> npy s' f = Complete).
Proof.
  intros s i. remember (todo (jobs s i)) as l eqn:El. revert s El. induction l as [|f l IH]; intros s El A B P N.
  - exists 0, s. cbn. repeat split; auto. intros f [].
  - assert (one : exists n s1, run (repeat (Run i) n) s = Some s1 /\ alive (jobs s1 i) = true /\ brk (jobs s1 i) = true /\ at_ (jobs s1 i) = Next /\ todo (jobs s1 i) = l /\
                  (forall g, npy s1 g <> Partial) /\ (forall g, npy s g = Complete -> npy s1 g = Complete) /\ npy s1 f = Complete).
    { destruct (npy s f) eqn:Nf.
      - exists 7. cbn [repeat run ev]. unfold act at 1. rewrite A, P, <- El, Nf. cbn [negb].
        cbn. unfold act at 1. cbn. rewrite !upd_eq. cbn. rewrite B, andb_false_r. cbn. unfold act at 1. cbn. rewrite !upd_eq. cbn. unfold act at 1. cbn. rewrite !upd_eq. cbn.
        unfold act at 1. cbn. rewrite !upd_eq. cbn. unfold act at 1. cbn. rewrite !upd_eq. cbn. unfold act at 1. cbn. rewrite !upd_eq. cbn. rewrite !upd_eq. eexists. split; [reflexivity|]. cbn. rewrite !upd_eq. cbn. repeat split.
        + intros g. unfold upd. destruct (g =? f); [discriminate|apply N].
        + intros g Hg. unfold upd. destruct (g =? f); [reflexivity|exact Hg].
      - now apply N in Nf.
      - exists 2. cbn [repeat run ev]. unfold act at 1. rewrite A, P, <- El, Nf. cbn [negb]. cbn. unfold act at 1. cbn. rewrite !upd_eq. cbn. rewrite Nf. cbn. eexists. split; [reflexivity|]. cbn. rewrite !upd_eq. cbn. repeat split; auto. }
    destruct one as (n1 & s1 & R1 & A1 & B1 & P1 & T1 & N1 & C1 & F1). destruct (IH s1 (eq_sym T1) A1 B1 P1 N1) as (n2 & s2 & R2 & Fin & N2 & C2 & F2).
    exists (n1 + n2), s2. rewrite repeat_app, (run_app _ _ _ _ R1). split; [exact R2|]. split; [exact Fin|]. split; [exact N2|]. split; [auto|].
    intros g [<-|Hg]; auto.
Qed.
Print Assumptions C44_break_locks_recovers.
Lemma run_others es : forall s s' k, run es s = Some s' -> (forall e, In e es -> actor e <> k) -> jobs s' k = jobs s k.
Proof.
  induction es as [|e es IH]; cbn; intros s s' k R H; [now injection R as <-|]. destruct (ev e s) as [s1|] eqn:E; [|discriminate]. rewrite (IH s1 s' k R) by auto. apply (ev_other e); auto. intros ->. now apply (H e (or_introl eq_refl)).
Qed.
Example C44_nonvacuous : exists es s', run es (two_jobs false) = Some s' /\ (forall j, finished (jobs s' j)) /\ exclusive es (two_jobs false) /\ made s' 0 = 1.
Proof.
  set (es := [Run 0; Run 0; Run 0; Run 0; Run 0; Run 0; Run 0; Run 1; Run 1]). exists es.
  set (fin := fun j : job => alive j && match at_ j with Next => true | _ => false end && match todo j with [] => true | _ => false end).
  assert (F : forall j, fin j = true -> finished j).
  { intros j H. unfold fin in H. apply andb_true_iff in H as [H H3]. apply andb_true_iff in H as [H1 H2]. repeat split; [exact H1|destruct (at_ j); congruence|destruct (todo j); congruence]. }
  destruct (run_check es (two_jobs false) (fun t => Nat.eqb (made t 0) 1 && fin (jobs t 0) && fin (jobs t 1))) as (s' & R & B); [vm_compute; reflexivity|]. exists s'. split; [exact R|].
  apply andb_true_iff in B as [B B3]. apply andb_true_iff in B as [B1 B2]. split; [|split; [|now apply Nat.eqb_eq]].
  - intros [|[|j]]; [now apply F..|]. rewrite (run_others es (two_jobs false) s' (S (S j)) R); [repeat split|]. intros e He. cbn in He. repeat (destruct He as [<-|He]; [discriminate|]). destruct He.
  - apply xcheck_ok; [reflexivity|vm_compute; reflexivity].
Qed.
