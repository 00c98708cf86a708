(** * The iterations of the clause loops, access by access, compute what the clause functions of Algo.v compute. *)
From Verif Require Import Wp VoteFacts Parallel ParallelFacts.
From stdpp Require Import list.
Local Open Scope Z_scope.


(** ** Classic *)
Definition c_ro (c : ccell) : Prop := match c with COutput _ => False | _ => True end.
Section Classic.
  Context (B : nat) (X : list Z) (ta : nmatrix) (out : list Z).
  Notation nf := (length X).
  Notation m := (CMem X ta out).
  Notation onlyr := (only_reads (M := classic_machine) c_ro).

  Lemma pcl_actions_exec oidx fidx : exec (pcl_actions oidx fidx) m = let* a := cl_actions ta oidx fidx in Ret (a, m).
  Proof.
    unfold pcl_actions, cl_actions, cautomaton, pread. cbn.
    destruct (nm_get ta _ fidx); cbn; [|done..]. by destruct (nm_get ta _ fidx).
  Qed.
  Lemma pcl_actions_reads oidx fidx : onlyr (pcl_actions oidx fidx).
  Proof. unfold pcl_actions. by repeat (cbn; split; [done|]; intros). Qed.
  Lemma cfeature_exec f : exec (cfeature f) m = let* x := vget X f in Ret (x, m).
  Proof. cbn. by destruct (vget X f). Qed.
  Lemma cfeature_reads f : onlyr (cfeature f).
  Proof. by split. Qed.
  Hint Resolve pcl_actions_reads cfeature_reads only_reads_bind only_reads_for : core.

  Local Ltac look oidx fidx := rewrite ?exec_bind, pcl_actions_exec;
    destruct (cl_actions ta oidx fidx) as [[inc incn]| | |]; cbn [obind]; [|done..];
    rewrite ?exec_bind, cfeature_exec; destruct (vget X fidx) as [x| | |]; cbn [obind]; [|done..].

  Lemma pcl_short_exec oidx n fidx b : exec (pcl_short oidx n fidx b) m = let* v := cl_short X ta oidx n fidx b in Ret (v, m).
  Proof.
    revert fidx b. induction n as [|n IH]; intros fidx b; cbn [pcl_short cl_short]; [done|]. destruct b; [|done].
    look oidx fidx. apply IH.
  Qed.
  Lemma pcl_short_reads oidx n fidx b : onlyr (pcl_short oidx n fidx b).
  Proof. revert fidx b. induction n as [|n IH]; intros fidx b; cbn [pcl_short]; [done|]. destruct b; [|done]. apply only_reads_bind; [auto|]. intros []. auto. Qed.
  Lemma pcl_tiles_exec fuel oidx kk t : exec (pcl_tiles B nf fuel oidx kk t) m = let* v := cl_tiles B X ta fuel oidx kk t in Ret (v, m).
  Proof.
    revert kk t. induction fuel as [|fuel IH]; intros kk t; cbn [pcl_tiles cl_tiles]; [done|]. case_decide; [|done]. rewrite exec_bind.
    rewrite (exec_for _ (fun fidx toggle =>
            let* '(inc, incn) := cl_actions ta oidx fidx in
            let* x := vget X fidx in
            let flag := cl_flag x inc incn in
            Ret (if toggle <? flag then flag else toggle))) by (intros i s; look oidx i; done).
    destruct (ofor _ _ _ _) as [t'| | |]; cbn [obind]; [|done..]. destruct (negb _); [done|]. apply IH.
  Qed.
  Lemma pcl_tiles_reads fuel oidx kk t : onlyr (pcl_tiles B nf fuel oidx kk t).
  Proof.
    revert kk t. induction fuel as [|fuel IH]; intros kk t; cbn [pcl_tiles]; [done|]. case_decide; [|done]. apply only_reads_bind.
    - apply only_reads_for. intros. apply only_reads_bind; [auto|]. intros []. apply only_reads_bind; [auto|]. done.
    - intros t'. destruct (negb _); [done|]. auto.
  Qed.
  Lemma pcl_tail_exec oidx n fidx t : exec (pcl_tail oidx n fidx t) m = let* v := cl_tail X ta oidx n fidx t in Ret (v, m).
  Proof.
    revert fidx t. induction n as [|n IH]; intros fidx t; cbn [pcl_tail cl_tail]; [done|]. destruct (t =? 0); [|done].
    look oidx fidx. apply IH.
  Qed.
  Lemma pcl_tail_reads oidx n fidx t : onlyr (pcl_tail oidx n fidx t).
  Proof. revert fidx t. induction n as [|n IH]; intros fidx t; cbn [pcl_tail]; [done|]. destruct (t =? 0); [|done]. apply only_reads_bind; [auto|]. intros []. auto. Qed.
  Lemma pcl_will oidx v : cl_clause B X ta oidx = Ret v -> exists n, will (M := classic_machine) c_ro COutput m v oidx n (pcl_body B nf oidx).
  Proof.
    intros E. unfold pcl_body. eapply (will_bind (M := classic_machine) c_ro COutput m _ _ v m v oidx); [| |done].
    - case_decide.
      + apply only_reads_bind; [apply pcl_short_reads|done].
      + apply only_reads_bind; [apply pcl_tiles_reads|]. intros []. apply only_reads_bind; [apply pcl_tail_reads|done].
    - unfold cl_clause in E. case_decide.
      + rewrite exec_bind, pcl_short_exec. destruct (cl_short _ _ _ _ _ _); cbn in *; try discriminate E. by injection E as ->.
      + rewrite exec_bind, pcl_tiles_exec. destruct (cl_tiles _ _ _ _ _ _ _) as [[kk t]| | |]; cbn [obind] in *; try discriminate E.
        rewrite exec_bind, pcl_tail_exec. destruct (cl_tail _ _ _ _ _ _); cbn in *; try discriminate E. by injection E as ->.
  Qed.

  Lemma pclp_short_exec oidx n fidx b1 b2 : exec (pclp_short oidx n fidx b1 b2) m = let* v := clp_short X ta oidx n fidx b1 b2 in Ret (v, m).
  Proof.
    revert fidx b1 b2. induction n as [|n IH]; intros fidx b1 b2; cbn [pclp_short clp_short]; [done|]. destruct b1; [|done].
    look oidx fidx. apply IH.
  Qed.
  Lemma pclp_short_reads oidx n fidx b1 b2 : onlyr (pclp_short oidx n fidx b1 b2).
  Proof. revert fidx b1 b2. induction n as [|n IH]; intros fidx b1 b2; cbn [pclp_short]; [done|]. destruct b1; [|done]. apply only_reads_bind; [auto|]. intros []. auto. Qed.
  Lemma pclp_tiles_exec fuel oidx kk t a : exec (pclp_tiles B nf fuel oidx kk t a) m = let* v := clp_tiles B X ta fuel oidx kk t a in Ret (v, m).
  Proof.
    revert kk t a. induction fuel as [|fuel IH]; intros kk t a; cbn [pclp_tiles clp_tiles]; [done|]. case_decide; [|done]. rewrite exec_bind.
    rewrite (exec_for _ (fun fidx '(toggle, nae) =>
            let* '(inc, incn) := cl_actions ta oidx fidx in
            let* x := vget X fidx in
            let flag := cl_flag x inc incn in
            let xflag := b2z inc + b2z incn in
            Ret (if toggle <? flag then flag else toggle, if nae <? xflag then xflag else nae))) by (intros i [? ?]; look oidx i; done).
    destruct (ofor _ _ _ _) as [[t' a']| | |]; cbn [obind]; [|done..]. destruct (negb _); [done|]. apply IH.
  Qed.
  Lemma pclp_tiles_reads fuel oidx kk t a : onlyr (pclp_tiles B nf fuel oidx kk t a).
  Proof.
    revert kk t a. induction fuel as [|fuel IH]; intros kk t a; cbn [pclp_tiles]; [done|]. case_decide; [|done]. apply only_reads_bind.
    - apply only_reads_for. intros ? []. apply only_reads_bind; [auto|]. intros []. apply only_reads_bind; [auto|]. done.
    - intros [t' a']. destruct (negb _); [done|]. auto.
  Qed.
  Lemma pclp_tail_exec oidx n fidx t a : exec (pclp_tail oidx n fidx t a) m = let* v := clp_tail X ta oidx n fidx t a in Ret (v, m).
  Proof.
    revert fidx t a. induction n as [|n IH]; intros fidx t a; cbn [pclp_tail clp_tail]; [done|]. destruct (t =? 0); [|done].
    look oidx fidx. apply IH.
  Qed.
  Lemma pclp_tail_reads oidx n fidx t a : onlyr (pclp_tail oidx n fidx t a).
  Proof. revert fidx t a. induction n as [|n IH]; intros fidx t a; cbn [pclp_tail]; [done|]. destruct (t =? 0); [|done]. apply only_reads_bind; [auto|]. intros []. auto. Qed.
  Lemma pclp_will oidx v : clp_clause B X ta oidx = Ret v -> exists n, will (M := classic_machine) c_ro COutput m v oidx n (pclp_body B nf oidx).
  Proof.
    intros E. unfold pclp_body. eapply (will_bind (M := classic_machine) c_ro COutput m _ _ v m v oidx); [| |done].
    - case_decide.
      + apply only_reads_bind; [apply pclp_short_reads|by intros []].
      + apply only_reads_bind; [apply pclp_tiles_reads|]. intros [[] ?]. apply only_reads_bind; [apply pclp_tail_reads|by intros []].
    - unfold clp_clause in E. case_decide.
      + rewrite exec_bind, pclp_short_exec. destruct (clp_short _ _ _ _ _ _ _) as [[]| | |]; cbn in *; try discriminate E. by injection E as ->.
      + rewrite exec_bind, pclp_tiles_exec. destruct (clp_tiles _ _ _ _ _ _ _ _) as [[[kk t] a]| | |]; cbn [obind] in *; try discriminate E.
        rewrite exec_bind, pclp_tail_exec. destruct (clp_tail _ _ _ _ _ _ _) as [[]| | |]; cbn in *; try discriminate E. by injection E as ->.
  Qed.
End Classic.

(** ** Bitwise; the machine is that of the char outputs or that of the packed outputs *)
Definition b_ro (c : bcell) : Prop := match c with BOutput _ => False | _ => True end.
Section Bitwise.
  Context (M : machine) (ro : cell M -> Prop) (feature : nat -> prog M N) (polarity : nat -> nat -> prog M N) (m : memory M).
  Context (B : nat) (X : bit_vector) (p : bmatrix).
  Notation nblx := (bv_content_blocks 64 X).
  Notation onlyr := (only_reads ro).
  Hypothesis Hf : forall k, exec (feature k) m = let* x := vget (bv_blocks X) k in Ret (x, m).
  Hypothesis Hp : forall r k, exec (polarity r k) m = let* x := bm_block p r k in Ret (x, m).
  Hypothesis Rf : forall k, onlyr (feature k).
  Hypothesis Rp : forall r k, onlyr (polarity r k).

  Lemma pbw_eval_exec oidx fidx : exec (pbw_eval M feature polarity oidx fidx) m = let* a := bw_eval X p oidx fidx in Ret (a, m).
  Proof using Hf Hp.
    unfold pbw_eval, bw_eval. rewrite exec_bind, Hp. destruct (bm_block p _ fidx); cbn [obind]; [|done..].
    rewrite exec_bind, Hp. destruct (bm_block p _ fidx); cbn [obind]; [|done..].
    rewrite exec_bind, Hf. destruct (vget _ fidx); cbn [obind]; done.
  Qed.
  Lemma pbw_eval_reads oidx fidx : onlyr (pbw_eval M feature polarity oidx fidx).
  Proof using Rf Rp. unfold pbw_eval. apply only_reads_bind; [auto|]. intros. apply only_reads_bind; [auto|]. intros. apply only_reads_bind; [auto|]. done. Qed.
  Local Ltac look oidx fidx := rewrite ?exec_bind, pbw_eval_exec; destruct (bw_eval X p oidx fidx) as [[[ev inc] incn]| | |]; cbn [obind]; [|done..].

  Lemma pbw_short_exec oidx n fidx b : exec (pbw_short M feature polarity oidx n fidx b) m = let* v := bw_short X p oidx n fidx b in Ret (v, m).
  Proof using Hf Hp.
    revert fidx b. induction n as [|n IH]; intros fidx b; cbn [pbw_short bw_short]; [done|]. destruct b; [|done].
    look oidx fidx. apply IH.
  Qed.
  Lemma pbw_short_reads oidx n fidx b : onlyr (pbw_short M feature polarity oidx n fidx b).
  Proof using Rf Rp. revert fidx b. induction n as [|n IH]; intros fidx b; cbn [pbw_short]; [done|]. destruct b; [|done]. apply only_reads_bind; [apply pbw_eval_reads|]. intros [[]]. auto. Qed.
  Lemma pbw_tiles_exec fuel oidx kk t : exec (pbw_tiles M feature polarity B nblx fuel oidx kk t) m = let* v := bw_tiles B X p fuel oidx kk t in Ret (v, m).
  Proof using Hf Hp.
    revert kk t. induction fuel as [|fuel IH]; intros kk t; cbn [pbw_tiles bw_tiles]; [done|]. case_decide; [|done]. rewrite exec_bind.
    rewrite (exec_for _ (fun fidx toggle =>
            let* '(ev, _, _) := bw_eval X p oidx fidx in
            Ret (if toggle <? ev then ev else toggle)%N)) by (intros i s; look oidx i; done).
    destruct (ofor _ _ _ _) as [t'| | |]; cbn [obind]; [|done..]. destruct (negb _); [done|]. apply IH.
  Qed.
  Lemma pbw_tiles_reads fuel oidx kk t : onlyr (pbw_tiles M feature polarity B nblx fuel oidx kk t).
  Proof using Rf Rp.
    revert kk t. induction fuel as [|fuel IH]; intros kk t; cbn [pbw_tiles]; [done|]. case_decide; [|done]. apply only_reads_bind.
    - apply only_reads_for. intros. apply only_reads_bind; [apply pbw_eval_reads|]. by intros [[]].
    - intros t'. destruct (negb _); [done|]. auto.
  Qed.
  Lemma pbw_tail_exec oidx n fidx t : exec (pbw_tail M feature polarity oidx n fidx t) m = let* v := bw_tail X p oidx n fidx t in Ret (v, m).
  Proof using Hf Hp.
    revert fidx t. induction n as [|n IH]; intros fidx t; cbn [pbw_tail bw_tail]; [done|]. destruct (t =? 0)%N; [|done].
    look oidx fidx. apply IH.
  Qed.
  Lemma pbw_tail_reads oidx n fidx t : onlyr (pbw_tail M feature polarity oidx n fidx t).
  Proof using Rf Rp. revert fidx t. induction n as [|n IH]; intros fidx t; cbn [pbw_tail]; [done|]. destruct (t =? 0)%N; [|done]. apply only_reads_bind; [apply pbw_eval_reads|]. intros [[]]. auto. Qed.
  Lemma pbw_clause_reads oidx : onlyr (pbw_clause M feature polarity B nblx oidx).
  Proof using Rf Rp.
    unfold pbw_clause. case_decide; [apply pbw_short_reads|]. apply only_reads_bind; [apply pbw_tiles_reads|]. intros [].
    apply only_reads_bind; [apply pbw_tail_reads|done].
  Qed.
  Lemma pbw_clause_exec oidx v : bw_clause B X p oidx = Ret v -> exists b, v = b2z b /\ exec (pbw_clause M feature polarity B nblx oidx) m = Ret (b, m).
  Proof using Hf Hp.
    unfold bw_clause, pbw_clause. intros E. case_decide.
    - rewrite pbw_short_exec. destruct (bw_short _ _ _ _ _ _) as [b| | |]; cbn in *; try discriminate E. injection E as <-. by exists b.
    - rewrite exec_bind, pbw_tiles_exec. destruct (bw_tiles _ _ _ _ _ _ _) as [[kk t]| | |]; cbn [obind] in *; try discriminate E.
      rewrite exec_bind, pbw_tail_exec. destruct (bw_tail _ _ _ _ _ _); cbn in *; try discriminate E. injection E as <-. eauto.
  Qed.

  Lemma pbwp_short_exec oidx n fidx b a : exec (pbwp_short M feature polarity oidx n fidx b a) m = let* v := bwp_short X p oidx n fidx b a in Ret (v, m).
  Proof using Hf Hp.
    revert fidx b a. induction n as [|n IH]; intros fidx b a; cbn [pbwp_short bwp_short]; [done|]. destruct b; [|done].
    look oidx fidx. apply IH.
  Qed.
  Lemma pbwp_short_reads oidx n fidx b a : onlyr (pbwp_short M feature polarity oidx n fidx b a).
  Proof using Rf Rp. revert fidx b a. induction n as [|n IH]; intros fidx b a; cbn [pbwp_short]; [done|]. destruct b; [|done]. apply only_reads_bind; [apply pbw_eval_reads|]. intros [[]]. auto. Qed.
  Lemma pbwp_tiles_exec fuel oidx kk t a : exec (pbwp_tiles M feature polarity B nblx fuel oidx kk t a) m = let* v := bwp_tiles B X p fuel oidx kk t a in Ret (v, m).
  Proof using Hf Hp.
    revert kk t a. induction fuel as [|fuel IH]; intros kk t a; cbn [pbwp_tiles bwp_tiles]; [done|]. case_decide; [|done]. rewrite exec_bind.
    rewrite (exec_for _ (fun fidx '(toggle, anyi) =>
            let* '(ev, inc, incn) := bw_eval X p oidx fidx in
            let u := N.lor inc incn in
            Ret (if toggle <? ev then ev else toggle, if anyi <? u then u else anyi)%N)) by (intros i []; look oidx i; done).
    destruct (ofor _ _ _ _) as [[t' a']| | |]; cbn [obind]; [|done..]. destruct (negb _); [done|]. apply IH.
  Qed.
  Lemma pbwp_tiles_reads fuel oidx kk t a : onlyr (pbwp_tiles M feature polarity B nblx fuel oidx kk t a).
  Proof using Rf Rp.
    revert kk t a. induction fuel as [|fuel IH]; intros kk t a; cbn [pbwp_tiles]; [done|]. case_decide; [|done]. apply only_reads_bind.
    - apply only_reads_for. intros ? []. apply only_reads_bind; [apply pbw_eval_reads|]. by intros [[]].
    - intros [t' a']. destruct (negb _); [done|]. auto.
  Qed.
  Lemma pbwp_tail_exec oidx n fidx t a : exec (pbwp_tail M feature polarity oidx n fidx t a) m = let* v := bwp_tail X p oidx n fidx t a in Ret (v, m).
  Proof using Hf Hp.
    revert fidx t a. induction n as [|n IH]; intros fidx t a; cbn [pbwp_tail bwp_tail]; [done|]. destruct (t =? 0)%N; [|done].
    look oidx fidx. apply IH.
  Qed.
  Lemma pbwp_tail_reads oidx n fidx t a : onlyr (pbwp_tail M feature polarity oidx n fidx t a).
  Proof using Rf Rp. revert fidx t a. induction n as [|n IH]; intros fidx t a; cbn [pbwp_tail]; [done|]. destruct (t =? 0)%N; [|done]. apply only_reads_bind; [apply pbw_eval_reads|]. intros [[]]. auto. Qed.
  Lemma pbwp_clause_reads oidx : onlyr (pbwp_clause M feature polarity B nblx oidx).
  Proof using Rf Rp.
    unfold pbwp_clause. case_decide.
    - apply only_reads_bind; [apply pbwp_short_reads|by intros []].
    - apply only_reads_bind; [apply pbwp_tiles_reads|]. intros [[]]. apply only_reads_bind; [apply pbwp_tail_reads|by intros []].
  Qed.
  Lemma pbwp_clause_exec oidx v : bwp_clause B X p oidx = Ret v -> exists b, v = b2z b /\ exec (pbwp_clause M feature polarity B nblx oidx) m = Ret (b, m).
  Proof using Hf Hp.
    unfold bwp_clause, pbwp_clause. intros E. case_decide.
    - rewrite exec_bind, pbwp_short_exec. destruct (bwp_short _ _ _ _ _ _ _) as [[]| | |]; cbn in *; try discriminate E. injection E as <-. eauto.
    - rewrite exec_bind, pbwp_tiles_exec. destruct (bwp_tiles _ _ _ _ _ _ _ _) as [[[kk t] a]| | |]; cbn [obind] in *; try discriminate E.
      rewrite exec_bind, pbwp_tail_exec. destruct (bwp_tail _ _ _ _ _ _ _) as [[]| | |]; cbn in *; try discriminate E. injection E as <-. eauto.
  Qed.
End Bitwise.

Section BitwiseBodies.
  Context (B : nat) (X : bit_vector) (p : bmatrix) (out : list Z).
  Notation nblx := (bv_content_blocks 64 X).
  Notation m := (BMem X p out).
  Definition bit (v : Z) : N := Z.to_N v.
  Lemma bfeature_exec k : exec (bfeature k) m = let* x := vget (bv_blocks X) k in Ret (x, m).
  Proof. cbn. by destruct (vget _ k). Qed.
  Lemma bpolarity_exec r k : exec (bpolarity r k) m = let* x := bm_block p r k in Ret (x, m).
  Proof. cbn. by destruct (bm_block p r k). Qed.
  Lemma bfeature_reads k : only_reads (M := bitwise_machine) b_ro (bfeature k). Proof. by split. Qed.
  Lemma bpolarity_reads r k : only_reads (M := bitwise_machine) b_ro (bpolarity r k). Proof. by split. Qed.
  Lemma pbw_will oidx v : bw_clause B X p oidx = Ret v ->
    exists n, will (M := bitwise_machine) b_ro BOutput m (bit v) oidx n (pbw_body B nblx oidx).
  Proof.
    intros E. destruct (pbw_clause_exec bitwise_machine _ _ m B X p bfeature_exec bpolarity_exec oidx v E) as (b & -> & Eb).
    eapply (will_bind (M := bitwise_machine) b_ro BOutput m _ _ b m); [|exact Eb|by destruct b].
    apply pbw_clause_reads; [apply bfeature_reads|apply bpolarity_reads].
  Qed.
  Lemma pbwp_will oidx v : bwp_clause B X p oidx = Ret v ->
    exists n, will (M := bitwise_machine) b_ro BOutput m (bit v) oidx n (pbwp_body B nblx oidx).
  Proof.
    intros E. destruct (pbwp_clause_exec bitwise_machine _ _ m B X p bfeature_exec bpolarity_exec oidx v E) as (b & -> & Eb).
    eapply (will_bind (M := bitwise_machine) b_ro BOutput m _ _ b m); [|exact Eb|by destruct b].
    apply pbwp_clause_reads; [apply bfeature_reads|apply bpolarity_reads].
  Qed.
End BitwiseBodies.
