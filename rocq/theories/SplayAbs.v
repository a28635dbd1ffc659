(** What [spl] does to a tree: its elements stay in order, the sought element comes to the root, and its price is paid by the potential. *)
From Verif Require Import BaseLemmas SplayModel SplayTree.
Import ListNotations.

Lemma spl_ind (dir : Z -> Z) (P : stree -> Prop) :
  P SE -> (forall l x r, (forall t, (size t < size (SN l x r))%nat -> P t) -> P (SN l x r)) -> forall t, P t.
Proof.
  intros H0 H1 t. assert (forall n t, (size t < n)%nat -> P t) as H; [|apply (H (S (size t))); lia].
  clear t. induction n as [|n IH]; intros t L; [lia|]. destruct t as [|l x r]; [exact H0|]. apply H1. intros t' L'. apply IH. lia.
Qed.
Ltac splcases l x r dir :=
  cbn [spl]; destruct (Z.eqb_spec (dir x) 0); [|destruct (Z.ltb_spec (dir x) 0); [destruct l as [|ll y lr]; [|destruct (Z.ltb_spec (dir y) 0); [destruct ll as [|lll w llr]|]]
    |destruct r as [|rl y rr]; [|destruct (Z.ltb_spec 0 (dir y)); [destruct rr as [|rrl w rrr]|]]]].

Lemma spl_shape dir : forall t, t <> SE -> exists a z b c, spl dir t = (SN a z b, c).
Proof.
  apply (spl_ind dir (fun t => t <> SE -> exists a z b c, spl dir t = (SN a z b, c))); [intros; congruence|]. intros l x r IH _. splcases l x r dir; eauto;
  match goal with |- context [spl dir ?t] => destruct (IH t) as (a & z & b & c & Q); [cbn [size]; lia|discriminate|rewrite Q; eauto] end.
Qed.
Lemma spl_elems dir : forall t a z b c, spl dir t = (SN a z b, c) -> elems a ++ z :: elems b = elems t.
Proof.
  apply (spl_ind dir (fun t => forall a z b c, spl dir t = (SN a z b, c) -> elems a ++ z :: elems b = elems t)); [discriminate|]. intros l x r IH a z b c. splcases l x r dir;
  try (intros Q; injection Q as <- <- <- <-; cbn [elems app]; rewrite <- ?app_assoc; reflexivity);
  match goal with |- context [spl dir ?t] => destruct (spl_shape dir t) as (a' & z' & b' & c' & Q'); [discriminate|]; rewrite Q'; pose proof (IH t ltac:(cbn [size]; lia) _ _ _ _ Q') as E; set (tt := t) in * end;
  intros Q; injection Q as <- <- <- <-; cbn [elems]; rewrite <- E, <- ?app_assoc; cbn [app]; rewrite <- ?app_assoc; reflexivity.
Qed.

(** The search goes one way from each element. *)
Definition mono (dir : Z -> Z) (l : list Z) : Prop :=
  forall p x q, l = p ++ x :: q -> (dir x <= 0 -> forall y, In y q -> dir y < 0) /\ (0 <= dir x -> forall y, In y p -> 0 < dir y).
Lemma mono_sub dir p l q : mono dir (p ++ l ++ q) -> mono dir l.
Proof.
  intros M a x b ->. destruct (M (p ++ a) x (b ++ q)) as (A & B); [rewrite <- !app_assoc; reflexivity|].
  split; intros D y J; [apply A|apply B]; auto; rewrite in_app_iff; auto.
Qed.
Definition parted (dir : Z -> Z) (a : stree) (z : Z) (b : stree) : Prop :=
  dir z = 0 \/ dir z < 0 /\ (forall x, In x (elems a) -> 0 < dir x) \/ 0 < dir z /\ (forall x, In x (elems b) -> dir x < 0).
(** The root is the sought element or next to where it would be. *)
Lemma spl_parted dir : forall t, mono dir (elems t) -> forall a z b c, spl dir t = (SN a z b, c) -> parted dir a z b.
Proof.
  apply (spl_ind dir (fun t => mono dir (elems t) -> forall a z b c, spl dir t = (SN a z b, c) -> parted dir a z b)); [discriminate|]. intros l x r IH M a z b c. splcases l x r dir.
  - intros Q; injection Q as <- <- <- <-. left. auto.
  - intros Q; injection Q as <- <- <- <-. right; left. split; [auto|]. intros ? [].
  - intros Q; injection Q as <- <- <- <-. right; left. split; [auto|]. intros ? [].
  - set (ll := SN lll w llr) in *. destruct (spl_shape dir ll) as (a' & z' & b' & c' & Q'); [discriminate|]. rewrite Q'. intros Q; injection Q as <- <- <- <-.
    assert (M' : mono dir (elems ll)). { apply (mono_sub dir [] _ (y :: elems lr ++ x :: elems r)). cbn [elems app] in *. rewrite <- app_assoc in M. exact M. }
    destruct (IH ll ltac:(cbn [size]; lia) M' _ _ _ _ Q') as [D|[(D & K)|(D & K)]]; [left; auto|right; left; auto|right; right]. split; [auto|].
    destruct (M (elems ll) y (elems lr ++ x :: elems r)) as (B & _); [cbn [elems]; rewrite <- app_assoc; reflexivity|].
    cbn [elems]. intros e J. rewrite in_app_iff in J. destruct J as [J|[<- |J]]; auto. apply B; [lia|auto].
  - set (l := SN ll y lr) in *. destruct (spl_shape dir l) as (a' & z' & b' & c' & Q'); [discriminate|]. rewrite Q'. intros Q; injection Q as <- <- <- <-.
    assert (M' : mono dir (elems l)). { apply (mono_sub dir [] _ (x :: elems r)). exact M. }
    destruct (IH l ltac:(cbn [size]; lia) M' _ _ _ _ Q') as [D|[(D & K)|(D & K)]]; [left; auto|right; left; auto|right; right]. split; [auto|].
    destruct (M (elems l) x (elems r)) as (B & _); [reflexivity|].
    cbn [elems]. intros e J. rewrite in_app_iff in J. destruct J as [J|[<- |J]]; auto. apply B; [lia|auto].
  - intros Q; injection Q as <- <- <- <-. right; right. split; [lia|]. intros ? [].
  - intros Q; injection Q as <- <- <- <-. right; right. split; [auto|]. intros ? [].
  - set (rr := SN rrl w rrr) in *. destruct (spl_shape dir rr) as (a' & z' & b' & c' & Q'); [discriminate|]. rewrite Q'. intros Q; injection Q as <- <- <- <-.
    assert (M' : mono dir (elems rr)). { apply (mono_sub dir (elems l ++ x :: elems rl ++ [y]) _ []). rewrite app_nil_r. cbn [elems app] in *. rewrite <- app_assoc. cbn [app]. rewrite <- app_assoc. exact M. }
    destruct (IH rr ltac:(cbn [size]; lia) M' _ _ _ _ Q') as [D|[(D & K)|(D & K)]]; [left; auto|right; left|right; right; auto]. split; [auto|].
    destruct (M (elems l ++ x :: elems rl) y (elems rr)) as (_ & B); [cbn [elems]; rewrite <- app_assoc; reflexivity|].
    cbn [elems]. intros e J. rewrite in_app_iff in J. destruct J as [J|[<- |J]]; auto. apply B; [lia|auto].
  - set (r := SN rl y rr) in *. destruct (spl_shape dir r) as (a' & z' & b' & c' & Q'); [discriminate|]. rewrite Q'. intros Q; injection Q as <- <- <- <-.
    assert (M' : mono dir (elems r)). { apply (mono_sub dir (elems l ++ [x]) _ []). rewrite app_nil_r, <- app_assoc. exact M. }
    destruct (IH r ltac:(cbn [size]; lia) M' _ _ _ _ Q') as [D|[(D & K)|(D & K)]]; [left; auto|right; left|right; right; auto]. split; [auto|].
    destruct (M (elems l) x (elems r)) as (_ & B); [reflexivity|].
    cbn [elems]. intros e J. rewrite in_app_iff in J. destruct J as [J|[<- |J]]; auto; try lia; try (apply B; [lia|auto]).
Qed.

(** The weight of a tree, and the potential: the product of the weights of its subtrees. *)
Definition wt (t : stree) : Z := Z.of_nat (size t) + 1.
Fixpoint pot (t : stree) : Z := match t with SE => 1 | SN l x r => (wt l + wt r) * (pot l * pot r) end.
Lemma wt_node l x r : wt (SN l x r) = wt l + wt r.
Proof. unfold wt. cbn [size]. lia. Qed.
Lemma wt_pos t : 1 <= wt t.
Proof. unfold wt. lia. Qed.
Lemma pot_pos t : 1 <= pot t.
Proof. induction t as [|l IHl x r IHr]; cbn; [lia|]. pose proof (wt_pos l). pose proof (wt_pos r). nia. Qed.
Lemma wt_spl dir t a z b c : spl dir t = (SN a z b, c) -> wt a + wt b = wt t.
Proof. intros Q. apply spl_elems in Q. unfold wt. rewrite <- !size_elems, <- Q, app_length. cbn. lia. Qed.
(** From the bound for the rest of the way to the bound for the whole; [f] is what the new subtrees weigh, [g] the old ones. *)
Lemma pay (K A B f g k W : Z) : 0 <= f -> 0 <= B -> K * A <= k * k * B -> f * (k * k) <= W * W * g -> K * (f * A) <= W * W * (g * B).
Proof. intros F HB H1 H2. assert (f * (K * A) <= f * (k * k * B)) by (apply Z.mul_le_mono_nonneg_l; auto). assert (f * (k * k) * B <= W * W * g * B) by (apply Z.mul_le_mono_nonneg_r; auto). lia. Qed.

Definition p2 (c : nat) : Z := 2 ^ Z.of_nat c.
Lemma p2S c : p2 (S c) = 2 * p2 c.
Proof. unfold p2. rewrite Nat2Z.inj_succ, Z.pow_succ_r by lia. reflexivity. Qed.
Lemma p2_pos c : 0 < p2 c.
Proof. unfold p2. apply Z.pow_pos_nonneg; lia. Qed.
Lemma four u v W : u + v = W -> 4 * (u * v) <= W * W.
Proof. intros <-. assert (0 <= (u - v) * (u - v)) by apply Z.square_nonneg. lia. Qed.
Lemma mul4 a b c d : 0 <= a <= b -> 0 <= c <= d -> a * c <= b * d.
Proof. intros. apply Z.mul_le_mono_nonneg; lia. Qed.
(** Two links on one side: [k] the rest, [p], [q] the subtrees passed, the nearer first. *)
Lemma same_side k p q u : 1 <= k -> 1 <= p -> 1 <= q -> 1 <= u <= k -> 2 * ((u + (p + q)) * (p + q)) * (k * k) <= (k + p + q) * (k + p + q) * ((k + p + q) * (k + p)).
Proof.
  intros. pose proof (four (p + q) k (k + p + q) ltac:(lia)).
  assert (A : 0 <= 2 * ((p + q) * k) <= (k + p + q) * (k + p + q)) by nia. assert (B : 0 <= (u + (p + q)) * k <= (k + p + q) * (k + p)) by (split; [nia|apply mul4; lia]).
  pose proof (mul4 _ _ _ _ A B). lia.
Qed.
(** One link on either side. *)
Lemma other_side k p q u v : 1 <= k -> 1 <= p -> 1 <= q -> 1 <= u -> 1 <= v -> u + v = k ->
  4 * ((p + u) * (v + q)) * (k * k) <= (k + p + q) * (k + p + q) * ((k + p + q) * (k + p)).
Proof.
  intros. pose proof (four (p + u) (v + q) (k + p + q) ltac:(lia)) as A. 
  assert (A' : 0 <= 4 * ((p + u) * (v + q)) <= (k + p + q) * (k + p + q)) by (split; [nia|lia]).
  assert (B : 0 <= k * k <= (k + p + q) * (k + p)) by (split; [nia|apply mul4; lia]).
  pose proof (mul4 _ _ _ _ A' B). lia.
Qed.
(** One link on one side, two on the other. *)
Lemma mixed k p q s u v : 1 <= k -> 1 <= p -> 1 <= q -> 1 <= s -> 1 <= u -> 1 <= v -> u + v = k ->
  4 * ((p + s + u) * (p + s) * (v + q)) * (k * k) <= (k + p + q + s) * (k + p + q + s) * ((k + p + q + s) * (k + p + s) * (k + s)).
Proof.
  intros. pose proof (four (p + s + u) (v + q) (k + p + q + s) ltac:(lia)) as A. set (W := k + p + q + s) in *.
  assert (A' : 0 <= 4 * ((p + s + u) * (v + q)) <= W * W) by (split; [nia|lia]).
  assert (B : 0 <= k * k <= W * (k + s)) by (split; [nia|unfold W; apply mul4; lia]).
  pose proof (mul4 _ _ _ _ A' B) as C.
  assert (D : 0 <= p + s <= k + p + s) by lia.
  assert (C' : 0 <= 4 * ((p + s + u) * (v + q)) * (k * k) <= W * W * (W * (k + s))) by (split; [nia|exact C]).
  pose proof (mul4 _ _ _ _ C' D). lia.
Qed.
Ltac posall := repeat match goal with
  | t : stree |- _ => lazymatch goal with H : 1 <= wt t |- _ => fail | _ => pose proof (wt_pos t); pose proof (pot_pos t) end end.
Definition cheap (dir : Z -> Z) (t : stree) : Prop := forall a z b c, spl dir t = (SN a z b, c) -> p2 c * (pot a * pot b) <= wt t * wt t * pot t.
Lemma base K n W g P : 0 <= P -> K * n <= W * W * g -> K * (n * P) <= W * W * (g * P).
Proof. intros H1 H2. pose proof (Z.mul_le_mono_nonneg_r _ _ P H1 H2). lia. Qed.
Ltac fin K n W g P := apply (Z.le_trans _ (K * (n * P))); [apply Z.eq_le_incl; ring|apply (Z.le_trans _ (W * W * (g * P))); [apply base|apply Z.eq_le_incl; ring]].
Lemma over K f A B k W g P : 0 <= P -> 0 <= f -> 0 <= B -> K * A <= k * k * B -> f * (k * k) <= W * W * g -> K * (f * P * A) <= W * W * (g * P * B).
Proof. intros HP F HB H1 H2. apply (pay K A B (f * P) (g * P) k W); auto; [nia|]. pose proof (Z.mul_le_mono_nonneg_r _ _ P HP H2). lia. Qed.
Ltac rec H K f A B k W g P := apply (Z.le_trans _ (K * (f * P * A))); [apply Z.eq_le_incl; ring|apply (Z.le_trans _ (W * W * (g * P * B))); [apply (over K f A B k W g P); [| |lia|exact H|]|apply Z.eq_le_incl; ring]].
Lemma b1 W : 2 <= W -> 2 * 1 <= W * W * W.
Proof. intros. pose proof (mul4 2 W 2 W ltac:(lia) ltac:(lia)). pose proof (mul4 4 (W * W) 2 W ltac:(lia) ltac:(lia)). lia. Qed.
Lemma b3 n W h : 3 <= W -> 0 <= n <= W -> 1 <= h -> 4 * n <= W * W * (W * h).
Proof. intros. pose proof (mul4 3 W 3 W ltac:(lia) ltac:(lia)). pose proof (mul4 n W 1 h ltac:(lia) ltac:(lia)). pose proof (mul4 4 (W * W) n (W * h) ltac:(lia) ltac:(lia)). lia. Qed.
Lemma b2 n W h : 3 <= W -> 0 <= n <= W -> 1 <= h -> 2 * n <= W * W * (W * h).
Proof. intros. pose proof (b3 n W h). lia. Qed.
Lemma b4 u v W h : u + v = W -> 1 <= h -> 4 * (u * v) <= W * W * h.
Proof. intros Q H. pose proof (four u v W Q). assert (0 <= W * W) by apply Z.square_nonneg. pose proof (Z.mul_le_mono_nonneg_l 1 h (W * W) ltac:(lia) H). lia. Qed.
Lemma spl_cost dir : forall t, cheap dir t.
Proof.
  apply (spl_ind dir (cheap dir)); [discriminate|]. intros l x r IH a z b c. cbn [spl].
  destruct (Z.eqb_spec (dir x) 0) as [D0|D0].
  { intros Q; injection Q as <- <- <- <-. cbn [pot]. rewrite wt_node. posall. change (p2 1) with 2. fin 2 1 (wt l + wt r) (wt l + wt r) (pot l * pot r). nia. apply b1. lia. }
  destruct (Z.ltb_spec (dir x) 0) as [D|D].
  - destruct l as [|ll y lr].
    { intros Q; injection Q as <- <- <- <-. cbn [pot]. rewrite wt_node. change (wt SE) with 1. posall. change (p2 1) with 2. fin 2 1 (1 + wt r) (1 + wt r) (pot r). lia. apply b1. lia. }
    destruct (Z.ltb_spec (dir y) 0) as [E|E].
    + destruct ll as [|lll w llr].
      { intros Q; injection Q as <- <- <- <-. cbn [pot]. rewrite !wt_node. change (wt SE) with 1. posall. change (p2 1) with 2.
        fin 2 (wt lr + wt r) (1 + wt lr + wt r) ((1 + wt lr + wt r) * (1 + wt lr)) (pot lr * pot r). nia. apply b2; lia. }
      set (ll := SN lll w llr) in *. destruct (spl_shape dir ll) as (a' & z' & b' & c' & Q'); [discriminate|]. rewrite Q'. intros Q; injection Q as <- <- <- <-.
      pose proof (IH ll ltac:(cbn [size]; lia) _ _ _ _ Q') as H. pose proof (wt_spl _ _ _ _ _ _ Q') as HW. clearbody ll. clear Q' IH. cbn [pot]. rewrite p2S, !wt_node. posall.
      rec H (p2 c') (2 * ((wt b' + (wt lr + wt r)) * (wt lr + wt r))) (pot a' * pot b') (pot ll) (wt ll) (wt ll + wt lr + wt r) ((wt ll + wt lr + wt r) * (wt ll + wt lr)) (pot lr * pot r).
      nia. nia. apply same_side; lia.
    + set (l := SN ll y lr) in *. destruct (spl_shape dir l) as (a1 & z1 & b1' & c1 & Q1); [discriminate|]. rewrite Q1. intros Q; injection Q as <- <- <- <-.
      revert Q1. unfold l at 1. cbn [spl]. destruct (Z.eqb_spec (dir y) 0) as [F|F].
      { intros Q; injection Q as <- <- <- <-. unfold l. cbn [pot]. rewrite !wt_node. posall. change (p2 2) with 4.
        fin 4 (wt lr + wt r) (wt ll + wt lr + wt r) ((wt ll + wt lr + wt r) * (wt ll + wt lr)) (pot ll * pot lr * pot r). nia. apply b3; lia. }
      destruct (Z.ltb_spec (dir y) 0) as [?|_]; [lia|]. destruct lr as [|p w q].
      { intros Q; injection Q as <- <- <- <-. unfold l. cbn [pot]. rewrite !wt_node. change (wt SE) with 1. posall. change (p2 2) with 4.
        fin 4 (1 + wt r) (wt ll + 1 + wt r) ((wt ll + 1 + wt r) * (wt ll + 1)) (pot ll * pot r). nia. apply b3; lia. }
      destruct (Z.ltb_spec 0 (dir w)) as [G|G].
      * destruct q as [|ql v qr].
        { intros Q; injection Q as <- <- <- <-. unfold l. cbn [pot]. rewrite !wt_node. change (wt SE) with 1. posall. change (p2 2) with 4.
          fin 4 ((wt ll + wt p) * (1 + wt r)) (wt ll + (wt p + 1) + wt r) ((wt ll + (wt p + 1) + wt r) * (wt ll + (wt p + 1)) * (wt p + 1)) (pot ll * pot p * pot r). nia. apply b4; nia. }
        set (q := SN ql v qr) in *. destruct (spl_shape dir q) as (a' & z' & b' & c' & Q'); [discriminate|]. rewrite Q'. intros Q; injection Q as <- <- <- <-.
        pose proof (IH q ltac:(unfold l; cbn [size]; lia) _ _ _ _ Q') as H. pose proof (wt_spl _ _ _ _ _ _ Q') as HW. unfold l. clearbody q. clear Q' IH l. cbn [pot]. rewrite !p2S, !wt_node. posall.
        rec H (p2 c') (4 * ((wt ll + wt p + wt a') * (wt ll + wt p) * (wt b' + wt r))) (pot a' * pot b') (pot q) (wt q) (wt q + wt ll + wt r + wt p)
          ((wt q + wt ll + wt r + wt p) * (wt q + wt ll + wt p) * (wt q + wt p)) (pot ll * pot p * pot r).
        nia. nia. apply mixed; lia.
      * set (lr := SN p w q) in *. destruct (spl_shape dir lr) as (a' & z' & b' & c' & Q'); [discriminate|]. rewrite Q'. intros Q; injection Q as <- <- <- <-.
        pose proof (IH lr ltac:(unfold l; cbn [size]; lia) _ _ _ _ Q') as H. pose proof (wt_spl _ _ _ _ _ _ Q') as HW. unfold l. clearbody lr. clear Q' IH l. cbn [pot]. rewrite !p2S, !wt_node. posall.
        rec H (p2 c') (4 * ((wt ll + wt a') * (wt b' + wt r))) (pot a' * pot b') (pot lr) (wt lr) (wt lr + wt ll + wt r) ((wt lr + wt ll + wt r) * (wt lr + wt ll)) (pot ll * pot r).
        nia. nia. apply other_side; lia.
  - destruct r as [|rl y rr].
    { intros Q; injection Q as <- <- <- <-. cbn [pot]. rewrite wt_node. change (wt SE) with 1. posall. change (p2 1) with 2. fin 2 1 (1 + wt l) (1 + wt l) (pot l). lia. apply b1. lia. }
    destruct (Z.ltb_spec 0 (dir y)) as [E|E].
    + destruct rr as [|rrl w rrr].
      { intros Q; injection Q as <- <- <- <-. cbn [pot]. rewrite !wt_node. change (wt SE) with 1. posall. change (p2 1) with 2.
        fin 2 (wt rl + wt l) (1 + wt rl + wt l) ((1 + wt rl + wt l) * (1 + wt rl)) (pot rl * pot l). nia. apply b2; lia. }
      set (rr := SN rrl w rrr) in *. destruct (spl_shape dir rr) as (a' & z' & b' & c' & Q'); [discriminate|]. rewrite Q'. intros Q; injection Q as <- <- <- <-.
      pose proof (IH rr ltac:(cbn [size]; lia) _ _ _ _ Q') as H. pose proof (wt_spl _ _ _ _ _ _ Q') as HW. clearbody rr. clear Q' IH. cbn [pot]. rewrite p2S, !wt_node. posall.
      rec H (p2 c') (2 * ((wt a' + (wt rl + wt l)) * (wt rl + wt l))) (pot a' * pot b') (pot rr) (wt rr) (wt rr + wt rl + wt l) ((wt rr + wt rl + wt l) * (wt rr + wt rl)) (pot rl * pot l).
      nia. nia. apply same_side; lia.
    + set (r := SN rl y rr) in *. destruct (spl_shape dir r) as (a1 & z1 & b1' & c1 & Q1); [discriminate|]. rewrite Q1. intros Q; injection Q as <- <- <- <-.
      revert Q1. unfold r at 1. cbn [spl]. destruct (Z.eqb_spec (dir y) 0) as [F|F].
      { intros Q; injection Q as <- <- <- <-. unfold r. cbn [pot]. rewrite !wt_node. posall. change (p2 2) with 4.
        fin 4 (wt rl + wt l) (wt rr + wt rl + wt l) ((wt rr + wt rl + wt l) * (wt rr + wt rl)) (pot rr * pot rl * pot l). nia. apply b3; lia. }
      destruct (Z.ltb_spec (dir y) 0) as [_|?]; [|lia]. destruct rl as [|q w p].
      { intros Q; injection Q as <- <- <- <-. unfold r. cbn [pot]. rewrite !wt_node. change (wt SE) with 1. posall. change (p2 2) with 4.
        fin 4 (1 + wt l) (wt rr + 1 + wt l) ((wt rr + 1 + wt l) * (wt rr + 1)) (pot rr * pot l). nia. apply b3; lia. }
      destruct (Z.ltb_spec (dir w) 0) as [G|G].
      * destruct q as [|ql v qr].
        { intros Q; injection Q as <- <- <- <-. unfold r. cbn [pot]. rewrite !wt_node. change (wt SE) with 1. posall. change (p2 2) with 4.
          fin 4 ((wt rr + wt p) * (1 + wt l)) (wt rr + (wt p + 1) + wt l) ((wt rr + (wt p + 1) + wt l) * (wt rr + (wt p + 1)) * (wt p + 1)) (pot rr * pot p * pot l). nia. apply b4; nia. }
        set (q := SN ql v qr) in *. destruct (spl_shape dir q) as (a' & z' & b' & c' & Q'); [discriminate|]. rewrite Q'. intros Q; injection Q as <- <- <- <-.
        pose proof (IH q ltac:(unfold r; cbn [size]; lia) _ _ _ _ Q') as H. pose proof (wt_spl _ _ _ _ _ _ Q') as HW. unfold r. clearbody q. clear Q' IH r. cbn [pot]. rewrite !p2S, !wt_node. posall.
        rec H (p2 c') (4 * ((wt rr + wt p + wt b') * (wt rr + wt p) * (wt a' + wt l))) (pot a' * pot b') (pot q) (wt q) (wt q + wt rr + wt l + wt p)
          ((wt q + wt rr + wt l + wt p) * (wt q + wt rr + wt p) * (wt q + wt p)) (pot rr * pot p * pot l).
        nia. nia. apply mixed; lia.
      * set (rl := SN q w p) in *. destruct (spl_shape dir rl) as (a' & z' & b' & c' & Q'); [discriminate|]. rewrite Q'. intros Q; injection Q as <- <- <- <-.
        pose proof (IH rl ltac:(unfold r; cbn [size]; lia) _ _ _ _ Q') as H. pose proof (wt_spl _ _ _ _ _ _ Q') as HW. unfold r. clearbody rl. clear Q' IH r. cbn [pot]. rewrite !p2S, !wt_node. posall.
        rec H (p2 c') (4 * ((wt rr + wt b') * (wt a' + wt l))) (pot a' * pot b') (pot rl) (wt rl) (wt rl + wt rr + wt l) ((wt rl + wt rr + wt l) * (wt rl + wt rr)) (pot rr * pot l).
        nia. nia. apply other_side; lia.
Qed.
