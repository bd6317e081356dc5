(** Properties of rand_bytes (property C46). *)
From Coq Require Import Lia ZifyBool ZifyNat ZifyN.
From Verif.Model Require Import Base Random.
From Verif.Spec Require Import RandomSpec.
From Verif.Proof Require Import BaseProof.

Lemma read_loop_ok fd reads : forall mem off len, off + len <= lenN mem -> obeys len reads ->
  exists o, read_loop fd reads mem off len = Ok o /\
  match o with
  | Returned c mem' tr =>
      exists used rest, reads = used ++ rest /\
        closed fd tr /\
        ((c = 0%Z /\ Forall (fun r => r <> IoError EOTHER) used /\ lenN (delivered used) = len /\
          mem' = takeN off mem ++ delivered used ++ dropN (off + len) mem) \/
         (c = (-1)%Z /\ exists before, used = before ++ [IoError EOTHER] /\ lenN (delivered before) < len /\ outside off len mem mem'))
  | Waiting tr => ~ In (Close fd) tr /\ Forall (fun r => r <> IoError EOTHER) reads /\ lenN (delivered reads) < len
  end.
Proof.
  induction reads as [|r reads IH]; intros mem off len Hm Ho; cbn [read_loop].
  - destruct (len =? 0) eqn:E.
    + eexists. split; [reflexivity|]. exists [], []. split; [reflexivity|]. split; [exists []; split; [reflexivity|intros []]|]. left.
      repeat split; [constructor|change (0 = len); lia|]. cbn [delivered map concat app].
      assert (len = 0) by lia. subst len. rewrite N.add_0_r, take_drop. reflexivity.
    + eexists. split; [reflexivity|]. split; [intros [H|[]]; discriminate|]. split; [constructor|change (0 < len); lia].
  - destruct (len =? 0) eqn:E.
    { eexists. split; [reflexivity|]. exists [], (r :: reads). split; [reflexivity|]. split; [exists []; split; [reflexivity|intros []]|]. left.
      repeat split; [constructor|change (0 = len); lia|]. cbn [delivered map concat app].
      assert (len = 0) by lia. subst len. rewrite N.add_0_r, take_drop. reflexivity. }
    assert (Retry : forall e, e <> EOTHER -> r = IoError e -> exists o, (let! o := read_loop fd reads mem off len in Ok (log (Read fd len) o)) = Ok o /\
      match o with
      | Returned c mem' tr =>
          exists used rest, r :: reads = used ++ rest /\
            closed fd tr /\
            ((c = 0%Z /\ Forall (fun r => r <> IoError EOTHER) used /\ lenN (delivered used) = len /\
              mem' = takeN off mem ++ delivered used ++ dropN (off + len) mem) \/
             (c = (-1)%Z /\ exists before, used = before ++ [IoError EOTHER] /\ lenN (delivered before) < len /\ outside off len mem mem'))
      | Waiting tr => ~ In (Close fd) tr /\ Forall (fun r => r <> IoError EOTHER) (r :: reads) /\ lenN (delivered (r :: reads)) < len
      end).
    { intros e He ->. destruct (IH mem off len Hm) as (o & -> & K).
      { intros k. specialize (Ho (S k)). exact Ho. }
      cbn [bind]. eexists. split; [reflexivity|]. destruct o as [c mem' tr|tr]; cbn [log].
      - destruct K as (used & rest & -> & (tr0 & -> & Hc) & K). exists (IoError e :: used), rest. split; [reflexivity|].
        split. { exists (Read fd len :: tr0). split; [reflexivity|]. intros [H|H]; [discriminate|exact (Hc H)]. }
        destruct K as [(-> & K1 & K2 & K3)|(-> & before & -> & K1 & K2)].
        + left. repeat split; [|exact K2|exact K3]. constructor; [congruence|exact K1].
        + right. split; [reflexivity|]. exists (IoError e :: before). repeat split; assumption || reflexivity || idtac.
          exact (proj1 K2). exact (proj2 K2).
      - destruct K as (K1 & K2 & K3). split; [intros [H|H]; [discriminate|exact (K1 H)]|].
        split; [constructor; [congruence|exact K2]|exact K3]. }
    destruct r as [e|b].
    + destruct e; [apply (Retry EINTR); [discriminate|reflexivity]|apply (Retry EAGAIN); [discriminate|reflexivity]|].
      eexists. split; [reflexivity|]. exists [IoError EOTHER], reads. split; [reflexivity|].
      split. { exists [Read fd len]. split; [reflexivity|]. intros [H|[]]; discriminate. }
      right. split; [reflexivity|]. exists []. split; [reflexivity|]. split; [change (0 < len); lia|]. split; reflexivity.
    + clear Retry. assert (Hb : lenN b <= len). { specialize (Ho 1%nat). cbn in Ho. rewrite app_nil_r in Ho. exact Ho. }
      assert (G : (lenN b <=? len) = true) by lia. rewrite G. cbn [guard bind].
      rewrite blit_ok by lia. cbn [bind].
      set (mem1 := takeN off mem ++ b ++ dropN (off + lenN b) mem).
      assert (L1 : lenN mem1 = lenN mem) by (unfold mem1; rewrite !lenN_app, lenN_takeN, lenN_dropN; lia).
      assert (T1 : takeN (off + lenN b) mem1 = takeN off mem ++ b).
      { unfold mem1. rewrite app_assoc. rewrite takeN_app_ge by (rewrite lenN_app, lenN_takeN; lia).
        replace (off + lenN b - lenN (takeN off mem ++ b)) with 0 by (rewrite lenN_app, lenN_takeN; lia). rewrite takeN_0, app_nil_r. reflexivity. }
      assert (T0 : takeN off mem1 = takeN off mem).
      { unfold mem1. rewrite takeN_app_ge by (rewrite lenN_takeN; lia).
        replace (off - lenN (takeN off mem)) with 0 by (rewrite lenN_takeN; lia). rewrite takeN_0, app_nil_r. reflexivity. }
      assert (D1 : dropN (off + len) mem1 = dropN (off + len) mem).
      { unfold mem1. rewrite app_assoc.
        rewrite dropN_app_ge by (rewrite lenN_app, lenN_takeN; lia). rewrite dropN_dropN. f_equal.
        rewrite lenN_app, lenN_takeN. lia. }
      destruct (IH mem1 (off + lenN b) (len - lenN b)) as (o & -> & K); [lia| |].
      { intros k. specialize (Ho (S k)). cbn [firstn delivered map concat] in Ho. rewrite lenN_app in Ho. unfold delivered. lia. }
      cbn [bind]. eexists. split; [reflexivity|]. destruct o as [c mem' tr|tr]; cbn [log].
      * destruct K as (used & rest & -> & (tr0 & -> & Hc) & K). exists (IoBytes b :: used), rest. split; [reflexivity|].
        split. { exists (Read fd len :: tr0). split; [reflexivity|]. intros [H|H]; [discriminate|exact (Hc H)]. }
        destruct K as [(-> & K1 & K2 & K3)|(-> & before & -> & K1 & K2)].
        -- left. split; [reflexivity|]. split; [constructor; [discriminate|exact K1]|].
           change (delivered (IoBytes b :: used)) with (b ++ delivered used). rewrite lenN_app. split; [lia|].
           rewrite K3, T1. replace (off + lenN b + (len - lenN b)) with (off + len) by lia. rewrite D1, <- !app_assoc. reflexivity.
        -- right. split; [reflexivity|]. exists (IoBytes b :: before). split; [reflexivity|].
           change (delivered (IoBytes b :: before)) with (b ++ delivered before). rewrite lenN_app. split; [lia|].
           destruct K2 as (K2 & K3). replace (off + lenN b + (len - lenN b)) with (off + len) in K3 by lia.
           split; [|rewrite K3; exact D1]. rewrite <- T0.
           assert (TT : forall m : bytes, takeN off m = takeN off (takeN (off + lenN b) m)).
           { intros m. rewrite takeN_takeN. f_equal. lia. }
           rewrite (TT mem'), K2, <- TT. reflexivity.
      * destruct K as (K1 & K2 & K3). split; [intros [H|H]; [discriminate|exact (K1 H)]|].
        split; [constructor; [discriminate|exact K2]|].
        change (delivered (IoBytes b :: reads)) with (b ++ delivered reads). rewrite lenN_app. lia.
Qed.

Lemma delivered_app a b : delivered (a ++ b) = delivered a ++ delivered b.
Proof. unfold delivered. rewrite map_app, concat_app. reflexivity. Qed.

(** the outcome of the whole call *)
Lemma urandom_ok mem off len io reads : off + len <= lenN mem -> obeys len reads -> forall opens,
  exists o, rand_bytes_urandom mem off len opens io reads = Ok o /\
  match o with
  | Returned c mem' tr =>
      (c = 0%Z /\ exists n fd rest used rest', opens = repeat (OpenError EINTR) n ++ OpenFd fd :: rest /\ io = true /\
         reads = used ++ rest' /\ lenN (delivered used) = len /\
         mem' = takeN off mem ++ delivered used ++ dropN (off + len) mem /\ closed fd tr) \/
      (c = (-1)%Z /\ outside off len mem mem' /\
       ((exists n e rest, opens = repeat (OpenError EINTR) n ++ OpenError e :: rest /\ e <> EINTR /\ forall fd, ~ In (Close fd) tr) \/
        (exists n fd rest, opens = repeat (OpenError EINTR) n ++ OpenFd fd :: rest /\ closed fd tr /\
           (io = false \/ exists before rest', reads = before ++ IoError EOTHER :: rest' /\ lenN (delivered before) < len))))
  | Waiting tr =>
      (exists n, opens = repeat (OpenError EINTR) n) \/
      (io = true /\ Forall (fun r => r <> IoError EOTHER) reads /\ lenN (delivered reads) < len)
  end.
Proof.
  intros Hm Ho. induction opens as [|p opens IH]; cbn [rand_bytes_urandom].
  - eexists. split; [reflexivity|]. left. exists 0%nat. reflexivity.
  - destruct p as [e|fd].
    + assert (F : e <> EINTR -> exists o, Ok (Returned (-1) mem [Open]) = Ok o /\
        match o with
        | Returned c mem' tr =>
            (c = 0%Z /\ exists n fd rest used rest', OpenError e :: opens = repeat (OpenError EINTR) n ++ OpenFd fd :: rest /\ io = true /\
               reads = used ++ rest' /\ lenN (delivered used) = len /\
               mem' = takeN off mem ++ delivered used ++ dropN (off + len) mem /\ closed fd tr) \/
            (c = (-1)%Z /\ outside off len mem mem' /\
             ((exists n e' rest, OpenError e :: opens = repeat (OpenError EINTR) n ++ OpenError e' :: rest /\ e' <> EINTR /\ forall fd, ~ In (Close fd) tr) \/
              (exists n fd rest, OpenError e :: opens = repeat (OpenError EINTR) n ++ OpenFd fd :: rest /\ closed fd tr /\
                 (io = false \/ exists before rest', reads = before ++ IoError EOTHER :: rest' /\ lenN (delivered before) < len))))
        | Waiting tr =>
            (exists n, OpenError e :: opens = repeat (OpenError EINTR) n) \/
            (io = true /\ Forall (fun r => r <> IoError EOTHER) reads /\ lenN (delivered reads) < len)
        end).
      { intros He. eexists. split; [reflexivity|]. right. split; [reflexivity|]. split; [split; reflexivity|].
        left. exists 0%nat, e, opens. split; [reflexivity|]. split; [exact He|]. intros fd [H|[]]; discriminate. }
      destruct e; [clear F|apply F; discriminate|apply F; discriminate].
      destruct IH as (o & -> & K). cbn [bind]. eexists. split; [reflexivity|]. destruct o as [c mem' tr|tr]; cbn [log].
      * destruct K as [(-> & n & fd & rest & used & rest' & -> & K1 & K2 & K3 & K4 & tr0 & -> & K5)|(-> & K1 & K2)].
        -- left. split; [reflexivity|]. exists (S n), fd, rest, used, rest'. repeat (split; [assumption || reflexivity|]).
           exists (Open :: tr0). split; [reflexivity|]. intros [H|H]; [discriminate|exact (K5 H)].
        -- right. split; [reflexivity|]. split; [exact K1|]. destruct K2 as [(n & e & rest & -> & K2 & K3)|(n & fd & rest & -> & (tr0 & -> & K3) & K4)].
           ++ left. exists (S n), e, rest. split; [reflexivity|]. split; [exact K2|]. intros fd [H|H]; [discriminate|exact (K3 fd H)].
           ++ right. exists (S n), fd, rest. split; [reflexivity|]. split; [|exact K4]. exists (Open :: tr0). split; [reflexivity|].
              intros [H|H]; [discriminate|exact (K3 H)].
      * destruct K as [(n & ->)|K]; [left; exists (S n); reflexivity|right; exact K].
    + destruct io.
      * destruct (read_loop_ok fd reads mem off len Hm Ho) as (o & -> & K). cbn [bind]. eexists. split; [reflexivity|].
        destruct o as [c mem' tr|tr]; cbn [log].
        -- destruct K as (used & rest & -> & (tr0 & -> & Hc) & K).
           assert (CL : closed fd (Open :: Ioctl fd :: tr0 ++ [Close fd])).
           { exists (Open :: Ioctl fd :: tr0). split; [reflexivity|]. intros [H|[H|H]]; try discriminate. exact (Hc H). }
           destruct K as [(-> & K1 & K2 & K3)|(-> & before & -> & K1 & K2)].
           ++ left. split; [reflexivity|]. exists 0%nat, fd, opens, used, rest. repeat (split; [assumption || reflexivity|]). exact CL.
           ++ right. split; [reflexivity|]. split; [exact K2|]. right. exists 0%nat, fd, opens. split; [reflexivity|]. split; [exact CL|].
              right. exists before, rest. split; [rewrite <- app_assoc; reflexivity|exact K1].
        -- right. split; [reflexivity|]. exact (proj2 K).
      * eexists. split; [reflexivity|]. right. split; [reflexivity|]. split; [split; reflexivity|]. right.
        exists 0%nat, fd, opens. split; [reflexivity|]. split; [|left; reflexivity].
        exists [Open; Ioctl fd]. split; [reflexivity|]. intros [H|[H|[]]]; discriminate.
Qed.

Lemma urandom_success mem off len opens io reads mem' tr : off + len <= lenN mem -> obeys len reads ->
  rand_bytes_urandom mem off len opens io reads = Ok (Returned 0 mem' tr) ->
  exists n fd rest used rest', opens = repeat (OpenError EINTR) n ++ OpenFd fd :: rest /\ io = true /\
    reads = used ++ rest' /\ lenN (delivered used) = len /\
    mem' = takeN off mem ++ delivered used ++ dropN (off + len) mem /\ closed fd tr.
Proof.
  intros Hm Ho E. destruct (urandom_ok mem off len io reads Hm Ho opens) as (o & E' & K). rewrite E in E'. injection E' as <-.
  destruct K as [(_ & K)|(K & _)]; [exact K|discriminate].
Qed.
Lemma urandom_waits mem off len opens io reads : off + len <= lenN mem -> obeys len reads ->
  exists o, rand_bytes_urandom mem off len opens io reads = Ok o /\
    forall tr, o = Waiting tr -> (exists n, opens = repeat (OpenError EINTR) n) \/
      (io = true /\ Forall (fun r => r <> IoError EOTHER) reads /\ lenN (delivered reads) < len).
Proof.
  intros Hm Ho. destruct (urandom_ok mem off len io reads Hm Ho opens) as (o & E & K). exists o. split; [exact E|].
  intros tr ->. exact K.
Qed.
Lemma urandom_failure mem off len opens io reads c mem' tr : off + len <= lenN mem -> obeys len reads ->
  rand_bytes_urandom mem off len opens io reads = Ok (Returned c mem' tr) -> c <> 0%Z ->
  c = (-1)%Z /\ outside off len mem mem' /\
  ((exists n e rest, opens = repeat (OpenError EINTR) n ++ OpenError e :: rest /\ e <> EINTR /\ forall fd, ~ In (Close fd) tr) \/
   (exists n fd rest, opens = repeat (OpenError EINTR) n ++ OpenFd fd :: rest /\ closed fd tr /\
      (io = false \/ exists before rest', reads = before ++ IoError EOTHER :: rest' /\ lenN (delivered before) < len))).
Proof.
  intros Hm Ho E Hc. destruct (urandom_ok mem off len io reads Hm Ho opens) as (o & E' & K). rewrite E in E'. injection E' as <-.
  destruct K as [(K & _)|K]; [congruence|exact K].
Qed.

Lemma eintr_prefix n m p q (l l' : list open_result) :
  repeat (OpenError EINTR) n ++ p :: l = repeat (OpenError EINTR) m ++ q :: l' -> p <> OpenError EINTR -> q <> OpenError EINTR -> p = q.
Proof.
  revert m. induction n as [|n IH]; intros [|m] E Hp Hq; cbn in E; try congruence.
  eapply IH; [injection E as E; exact E|assumption|assumption].
Qed.
Lemma eintr_all n m (p : open_result) l : repeat (OpenError EINTR) n ++ p :: l = repeat (OpenError EINTR) m -> p = OpenError EINTR.
Proof.
  revert m. induction n as [|n IH]; intros [|m] E; cbn in E; try discriminate; [congruence|].
  eapply IH. injection E as E. exact E.
Qed.

Lemma urandom_returns mem off len n fd rest used rest' : off + len <= lenN mem -> obeys len (used ++ rest') ->
  Forall (fun r => r <> IoError EOTHER) used -> lenN (delivered used) = len ->
  exists mem' tr, rand_bytes_urandom mem off len (repeat (OpenError EINTR) n ++ OpenFd fd :: rest) true (used ++ rest') = Ok (Returned 0 mem' tr).
Proof.
  intros Hm Ho Hu Hl. destruct (urandom_ok mem off len true (used ++ rest') Hm Ho (repeat (OpenError EINTR) n ++ OpenFd fd :: rest)) as (o & -> & K).
  destruct o as [c mem' tr|tr].
  - destruct K as [(-> & _)|(_ & _ & [(n' & e & rest1 & E & He & _)|(n' & fd' & rest1 & _ & _ & [K|(before & rest2 & E & Hb)])])].
    + exists mem', tr. reflexivity.
    + apply eintr_prefix in E; [discriminate|discriminate|congruence].
    + discriminate.
    + exfalso. apply app_eq_app in E. destruct E as (l & [(E1 & E2)|(E1 & E2)]).
      * destruct l as [|x l].
        -- rewrite app_nil_r in E1. subst before. lia.
        -- cbn in E2. injection E2 as <- ->. rewrite E1 in Hu. apply Forall_app in Hu. destruct Hu as (_ & Hu). inversion Hu. congruence.
      * rewrite E1, delivered_app, lenN_app in Hb. lia.
  - exfalso. destruct K as [(m & K)|(_ & _ & K)].
    + apply eintr_all in K. discriminate.
    + rewrite delivered_app, lenN_app in K. lia.
Qed.

Lemma getrandom_ok mem off len r : off + len <= lenN mem -> (forall b, r = IoBytes b -> lenN b <= len) ->
  exists c mem', rand_bytes_getrandom mem off len r = Ok (c, mem') /\ outside off len mem mem' /\ (c = 0 \/ c = -1)%Z /\
    (c = 0%Z <-> exists b, r = IoBytes b /\ lenN b = len) /\
    (forall b, r = IoBytes b -> lenN b = len -> mem' = takeN off mem ++ b ++ dropN (off + len) mem).
Proof.
  intros Hm Hr. unfold rand_bytes_getrandom. destruct r as [e|b].
  - exists (-1)%Z, mem. split; [reflexivity|]. split; [split; reflexivity|]. split; [right; reflexivity|]. split; [|discriminate].
    split; [discriminate|]. intros (b & H & _). discriminate.
  - specialize (Hr b eq_refl). assert (G : (lenN b <=? len) = true) by lia. rewrite G. cbn [guard bind].
    rewrite blit_ok by lia. cbn [bind].
    assert (O : outside off len mem (takeN off mem ++ b ++ dropN (off + lenN b) mem)).
    { split.
      - rewrite takeN_app by (rewrite lenN_takeN; lia). rewrite takeN_takeN. f_equal. lia.
      - rewrite app_assoc, dropN_app_ge by (rewrite lenN_app, lenN_takeN; lia). rewrite dropN_dropN. f_equal.
        rewrite lenN_app, lenN_takeN. lia. }
    destruct (lenN b =? len) eqn:E.
    + exists 0%Z. eexists. split; [reflexivity|]. split; [exact O|]. split; [left; reflexivity|]. split.
      * split; [|reflexivity]. intros _. exists b. split; [reflexivity|lia].
      * intros b' [= <-] H. rewrite H. reflexivity.
    + exists (-1)%Z. eexists. split; [reflexivity|]. split; [exact O|]. split; [right; reflexivity|]. split.
      * split; [discriminate|]. intros (b' & [= <-] & H). lia.
      * intros b' [= <-] H. lia.
Qed.
