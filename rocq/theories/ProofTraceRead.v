(** ProofTraceRead.v -- the two functions that print: v5 `Unsubscribe::read` and v5 `read`. *)
From Verif Require Import ProofBase Lib ProofLib SrcBase SpecWire SpecFrame ProofTraceBase ProofTrace.
From Verif Require ProofSrcBase PropFrame TraceBase.
From Verif Require V5Mod SrcLib SrcV5Unsubscribe SrcV5Mod TraceLib TraceV5Unsubscribe TraceV5Mod.

(** [m'] does what [m] does and prints [out] *)
Definition ws {A} (m : writer A) (m' : TraceBase.writer A) (out : bytes -> list N) : Prop :=
  forall b, m' b = ((fst (m b), out b), snd (m b)).
Lemma ws_wq {A} (m : writer A) m' : wq m m' -> ws m m' (fun _ => []).
Proof. intros H b. apply H. Qed.
Lemma ws_bind {A B} (m : writer A) m' (k : A -> writer B) k' out :
  wq m m' -> (forall a, ws (k a) (k' a) (out a)) ->
  ws (wbind m k) (TraceBase.wbind m' k') (fun b => match m b with (Ok a, b') => out a b' | _ => [] end).
Proof.
  intros Hm Hk b. unfold wbind, TraceBase.wbind. rewrite (Hm b). destruct (m b) as [[a|e| |] b1]; cbn [fst snd]; try reflexivity.
  rewrite (Hk a b1). destruct (k a b1) as [o b2]; reflexivity.
Qed.
Lemma ws_last {A B} (m : writer A) m' (k : A -> writer B) k' out :
  ws m m' out -> (forall a, wq (k a) (k' a)) -> ws (wbind m k) (TraceBase.wbind m' k') out.
Proof.
  intros Hm Hk b. unfold wbind, TraceBase.wbind. rewrite (Hm b). destruct (m b) as [[a|e| |] b1]; cbn [fst snd]; try reflexivity.
  rewrite (Hk a b1). destruct (k a b1) as [o b2]; cbn [fst snd]. now rewrite app_nil_r.
Qed.
Lemma ws_lift {A} (o : outcome A) o' out : o' = (o, out) -> ws (lift o) (TraceBase.lift o') (fun _ => out).
Proof. intros -> b. reflexivity. Qed.
Lemma ws_dbg {B} n (k : unit -> writer B) k' :
  wq (k tt) (k' tt) -> ws (wbind (dbg n) k) (TraceBase.wbind (TraceBase.dbg n) k') (fun _ => [n]).
Proof.
  intros H b. unfold wbind, TraceBase.wbind, dbg, TraceBase.dbg, wret. cbn [fst snd]. rewrite (H b). destruct (k tt b); reflexivity.
Qed.

(** the identifier `Unsubscribe::read` gets to see *)
Definition seen_id (h : FixedHeader) (bs : bytes) : list N :=
  match keep (advance (fixed_header_len h)) bs with
  | (Ok _, b) => match SrcLib.read_u16 b with (Ok id, _) => [id] | _ => [] end
  | _ => []
  end.
Lemma q_Unsubscribe_read fuel h bs :
  TraceV5Unsubscribe.Unsubscribe_read fuel h bs = (SrcV5Unsubscribe.Unsubscribe_read fuel h bs, seen_id h bs).
Proof.
  unfold TraceV5Unsubscribe.Unsubscribe_read, SrcV5Unsubscribe.Unsubscribe_read, run, TraceBase.run. names. cbv zeta.
  match goal with |- fst (?m' bs) = (fst (?m bs), _) => assert (W : ws m m' (seen_id h)) end.
  - eapply ws_bind; [apply wq_silent|]. intros _. eapply ws_bind; [apply qLib_read_u16|]. intros id. apply ws_dbg.
    quiet.
  - rewrite (W bs). reflexivity.
Qed.

(** what `read` prints, in terms of its own calls *)
Definition read_prints (max : N) (s : bytes) : list N :=
  match SrcLib.check s max with
  | Ok h =>
      match SrcLib.FixedHeader_frame_length h with
      | Ok n =>
          match keep (split_to n) s with
          | (Ok frame, _) =>
              match SrcLib.FixedHeader_packet_type h with
              | Ok PT_Unsubscribe => if remaining_len h =? 0 then [] else seen_id h frame
              | _ => []
              end
          | _ => []
          end
      | _ => []
      end
  | _ => []
  end.
Lemma q_v5_read fuel max s :
  TraceV5Mod.read fuel max s = ((fst (SrcV5Mod.read fuel max s), read_prints max s), snd (SrcV5Mod.read fuel max s)).
Proof.
  enough (W : ws (SrcV5Mod.read fuel max) (TraceV5Mod.read fuel max) (read_prints max)) by apply W.
  unfold TraceV5Mod.read, SrcV5Mod.read. names. intros b.
  match goal with |- ?m' b = ((fst (?m b), _), _) => eassert (W : ws m m' _) end.
  - eapply ws_bind; [apply wq_silent|]. intros t1. eapply ws_bind; [apply wq_lift, qLib_check|]. intros h.
    eapply ws_bind; [apply wq_lift, qLib_FixedHeader_frame_length|]. intros n. eapply ws_bind; [apply wq_silent|]. intros frame.
    apply (ws_bind _ _ _ _ (fun t _ => match t with PT_Unsubscribe => if remaining_len h =? 0 then [] else seen_id h frame | _ => [] end));
      [apply wq_lift, qLib_FixedHeader_packet_type|]. intros t.
    cbv beta. destruct (remaining_len h =? 0).
    + destruct t; apply ws_wq; quiet.
    + apply ws_last; [|intros p; apply wq_silent]. destruct t; try (apply ws_wq; quiet; fail).
      apply ws_last; [|intros u; apply wq_silent]. apply ws_lift, q_Unsubscribe_read.
  - rewrite (W b). unfold read_prints, get, lift. destruct (SrcLib.check b max); try reflexivity.
Qed.
