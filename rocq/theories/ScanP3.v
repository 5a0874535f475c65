(** Proofs for C97: every request can be written as a directive; the numbers come back. *)
From Coq Require Import QArith.
From Verif Require Import Base Digits SeqM SeqSpec ContextM CompilerM GrammarSpec FormatterM MathM DecimalM BigDecM TraitsM ImplM
  FmtSpec DecSpec FloatSpec BigSpec DirSpec LoopSpec ExactSpec ScaleSpec ValueSpec WholeSpec CharP ReadSpec ReadFSpec ReadP CompilerP2 PatternP
  LoopP DoubleP NearP FloatQ FloatArgP CastP ReadFP2 PropsDouble PropsFloat PropsRead PropsWhole ScanSpec ScanP ScanP2.
Open Scope Z_scope.

(** ** A directive for every request *)

Lemma flags_for fl : exists F, flags_text F fl.
Proof.
  destruct fl as [l a p s z].
  exists ((if l then [45] else []) ++ (if a then [35] else []) ++ (if p then [43] else []) ++ (if s then [32] else []) ++ (if z then [48] else [])).
  destruct l, a, p, s, z; (split; [repeat constructor; cbn [In app]; intuition discriminate|]); (split; [intros x Hx; vm_compute in Hx |- *; tauto|reflexivity]).
Qed.
Lemma width_for n : 0 <= n <= 65536 -> exists W w, width_text W w /\ w <> PRECEDING /\ (if w =? UNSET then 0 else w) = n.
Proof.
  intros H. destruct (Z.eq_dec n 0) as [-> |N]; [exists [], UNSET; split; [constructor|]; split; [discriminate|reflexivity]|].
  destruct (dec_text_head n ltac:(lia)) as (d & r & E & Hd). exists (dec_text n), (dec_value (dec_text n)).
  pose proof (dec_value_dec_text n ltac:(lia)) as V. split; [|rewrite V; split; [unfold PRECEDING, int_min; lia|destruct (Z.eqb_spec n UNSET); unfold UNSET in *; lia]].
  rewrite E in *. constructor; [exact Hd| |lia]. rewrite <- E, dec_text_nonneg by lia. apply numeral10_dec. lia.
Qed.
Lemma prec_for o : (match o with Some n => 0 <= n <= 65536 | None => True end) ->
  exists P p, prec_text P p /\ p <> PRECEDING /\ (if p =? UNSET then None else Some p) = o.
Proof.
  intros H. destruct o as [n|]; [|exists [], UNSET; split; [constructor|]; split; [discriminate|reflexivity]].
  pose proof (dec_value_dec_text n ltac:(lia)) as V. exists (46 :: dec_text n), (dec_value (dec_text n)). split; [|rewrite V; split; [unfold PRECEDING, int_min; lia|destruct (Z.eqb_spec n UNSET); [unfold UNSET in *; lia|reflexivity]]].
  constructor; [|lia]. rewrite dec_text_nonneg by lia. apply numeral10_dec. lia.
Qed.
Lemma directive_for s q : s <> Spct -> 0 <= q_width q <= 65536 -> (match q_prec q with Some n => 0 <= n <= 65536 | None => True end) ->
  exists src, directive src s q.
Proof.
  intros Hs Hw Hp. destruct q as [l a p sp z w o]. cbn [q_width q_prec] in *. destruct (flags_for (mkFlags l a p sp z)) as [F HF].
  destruct (width_for w Hw) as (W & w' & HW & NW & <-). destruct (prec_for o Hp) as (P & p' & HP & NP & <-).
  exists (pct :: F ++ W ++ P ++ [letter s]). apply (dir_text F (mkFlags l a p sp z) W w' P p' (letter s) s HF HW NW HP NP (conv_self s)).
  intros _ E. destruct s; try discriminate. tauto.
Qed.

Lemma no_star_width J fl w : width_text fl w -> w <> PRECEDING -> forall l args, width_is J l w args (Ok (l, if w =? UNSET then 0 else w, args)).
Proof.
  intros H N l args. destruct H as [| |d ds A B C]; [constructor|tauto|]. pose proof (CompilerP.dec_value_nonneg (d :: ds) B) as P.
  destruct (Z.eqb_spec (dec_value (d :: ds)) UNSET) as [E|E]; [unfold UNSET in E; lia|]. constructor. exact P.
Qed.
Lemma no_star_prec J P p : prec_text P p -> p <> PRECEDING -> forall args, prec_is J p args (Ok (if p =? UNSET then None else Some p, args)).
Proof.
  intros H N args. destruct H as [| |ds B C]; [constructor|tauto|]. pose proof (CompilerP.dec_value_nonneg ds B) as Q.
  destruct (Z.eqb_spec (dec_value ds) UNSET) as [E|E]; [unfold UNSET in E; lia|]. constructor. exact Q.
Qed.

(** what a conversion shows is what a format string of its directive alone prints *)
Lemma shown_prints J src s q x t : jdk_ok J -> directive src s q -> s <> St -> s <> ST -> shown J s None q x (Ok t) -> prints J src [x] t.
Proof.
  intros HJ Hd N1 N2 H dtf. destruct Hd as [F fl W w P p c s HF HW NW HP NP Hc Hn].
  assert (G : GrammarSpec.format dtf (pct :: F ++ W ++ P ++ c :: [] ++ []) [Default s (mkCtx fl w p None)]).
  { apply fmt_dir; try assumption; [apply D_other; assumption|constructor]. }
  assert (S : says J [Default s (mkCtx fl w p None)] [x] (t ++ []) None).
  { apply (sy_piece J _ [] [x] t [] [] None); [|constructor].
    apply (pc_shown J s fl w p None [x] (f_left fl) (if w =? UNSET then 0 else w) [x] (if p =? UNSET then None else Some p) x []);
      [apply (no_star_width J W); assumption|apply (no_star_prec J P); assumption|exact H]. }
  rewrite app_nil_r in S. eexists. apply (C74_calls_follow_the_reference J dtf _ _ [x] t None HJ G S).
Qed.

(** the pattern plays no part outside dates *)
Lemma shown_pat J s pat pat' q x o : s <> St -> s <> ST -> shown J s pat q x o -> shown J s pat' q x o.
Proof.
  intros N1 N2 H.
  destruct H; try (exfalso; destruct s; solve [discriminate|tauto]); solve [econstructor; eassumption].
Qed.

(** ** The numbers come back *)

Lemma integer_told J s pat q v r n : integer_of J s v n -> exists t, shown J s pat q (traitsOf J v r) (Ok t) /\ integer_conv s = true /\ read_integer s t = n.
Proof.
  intros [[-> H]|[Hs H]].
  - exists (j_d q n). split; [apply sh_signed; [reflexivity|exact H]|]. split; [reflexivity|apply read_j_d].
  - pose proof (unsigned_nonneg _ _ _ H) as N. destruct s; try discriminate Hs.
    + exists (c_u q n). split; [apply sh_unsigned; [reflexivity|exact H]|]. split; [reflexivity|apply read_c_u, N].
    + exists (j_o q n). split; [apply sh_octal; [reflexivity|exact H]|]. split; [reflexivity|apply read_j_o, N].
    + exists (in_case Sx (j_x q n)). split; [apply sh_hex; [left; reflexivity|exact H]|]. split; [reflexivity|apply (read_j_x q n N)].
    + exists (in_case SX (j_x q n)). split; [apply sh_hex; [right; reflexivity|exact H]|]. split; [reflexivity|apply (read_j_x q n N)].
Qed.

Lemma lossless_float s q : lossless s q -> float_spec s = true /\ s <> Spct /\ s <> St /\ s <> ST /\ integer_conv s = false.
Proof. intros [H|[H _]]; destruct s; try discriminate H; try contradiction; repeat split; discriminate || reflexivity. Qed.

Lemma double_told J s pat q v r b : jdk_ok J -> 0 <= q_width q <= 65536 -> (match q_prec q with Some n => 0 <= n <= 65536 | None => True end) ->
  lossless s q -> is_double J v b -> finite b ->
  exists t, shown J s pat q (traitsOf J v r) (Ok t) /\
    (decimal_spec s /\ reads_back t b \/ hex_conv s = true /\ hex_reads_as t (b <? 0) (dval (magnitude b))).
Proof.
  intros HJ Hw Hp Hl Hv Hf. destruct (lossless_float s q Hl) as (Hs & N0 & N1 & N2 & _). destruct (ScaleP.digits_exist b Hf) as (f & e & Hi).
  assert (E : exists t, shown J s None q (traitsOf J v r) (Ok t)).
  { assert (D : fixed_conv s = true \/ exp_conv s = true \/ general_conv s = true \/ hex_conv s = true) by (destruct s; try discriminate Hs; auto).
    destruct D as [D|[D|[D|D]]]; eexists; [apply (sh_fixed J s None q v b f e r)|apply (sh_exp J s None q v b f e r)|apply (sh_general J s None q v b f e r)|apply (sh_hexfloat J s None q v b r)]; assumption. }
  destruct E as [t E]. exists t. split; [apply (shown_pat J s None); assumption|]. destruct (directive_for s q N0 Hw Hp) as [src Hd].
  pose proof (shown_prints J src s q _ t HJ Hd N1 N2 E) as P. destruct Hl as [Hl|[Hl Hl']].
  - left. split; [unfold decimal_spec; destruct s; cbn [keeps_all] in Hl; tauto|]. apply (C55_round_trip J src s q v b r t); assumption.
  - right. split; [exact Hl|]. apply (C55_hexadecimal J src s q v b r t); try assumption. destruct s; try discriminate Hl; auto.
Qed.

Lemma width_range J l w args l' w' a1 : width_is J l w args (Ok (l', w', a1)) -> w = UNSET \/ w = PRECEDING \/ 0 <= w <= 65536 -> 0 <= w' <= 65536.
Proof. intros H B. inversion H; subst; try lia. unfold UNSET, PRECEDING, int_min in *. lia. Qed.
Lemma prec_range J p args p' a1 : prec_is J p args (Ok (p', a1)) -> p = UNSET \/ p = PRECEDING \/ 0 <= p <= 65536 ->
  match p' with Some n => 0 <= n <= 65536 | None => True end.
Proof. intros H B. inversion H; subst; try exact I; try lia. unfold UNSET, PRECEDING, int_min in *. lia. Qed.

Lemma hex_same t neg neg' x x' : hex_reads_as t neg x -> hex_reads_as t neg' x' -> neg = neg' /\ (x == x')%Q.
Proof.
  intros (N & k & y & E & V) (N' & k' & y' & E' & V'). rewrite E in E'. injection E' as <- <- <- <-. split; [reflexivity|].
  assert (P : ~ (16 ^ k == 0)%Q) by (apply Qpower.Qpower_not_0; discriminate). rewrite <- V in V'. symmetry. apply (Qmult_inj_r _ _ _ P). exact V'.
Qed.

Lemma double_field W t w b s : field W t w -> (decimal_spec s /\ reads_back t b \/ hex_conv s = true /\ hex_reads_as t (b <? 0) (dval (magnitude b))) ->
  (decimal_spec s /\ reads_back w b \/ hex_conv s = true /\ hex_reads_as w (b <? 0) (dval (magnitude b))).
Proof.
  intros F [[H1 (x & (N & k & y & E & V) & R)]|[H1 (N & k & y & E & V)]]; [left|right]; (split; [exact H1|]).
  - exists x. split; [|exact R]. exists N, k, y. split; [|exact V]. rewrite <- (read_float_field W 10 (ch "e") t w); [exact E|left; reflexivity|vm_compute; split; discriminate|exact F].
  - exists N, k, y. split; [|exact V]. rewrite <- (read_float_field W 16 (ch "p") t w); [exact E|right; reflexivity|vm_compute; split; discriminate|exact F].
Qed.

Lemma numbers_worded J ds args xs : jdk_ok J -> Forall sane ds -> numbers J ds args xs ->
  exists ws, worded wordb J ds args ws /\ all_tell (convs ds) ws xs.
Proof.
  intros HJ Hd H. induction H as [args|u ds args xs H IH|s fl w p d args l w' a1 p' v r rest n ds xs Hw Hp Np Hi H IH|s fl w p d args l w' a1 p' v r rest b ds xs Hw Hp Hl Hv Hf H IH];
    [exists []; split; [constructor|exact I]|pose proof (Forall_inv Hd) as Hd0; apply Forall_inv_tail in Hd; destruct (IH Hd) as (ws & A & B)..].
  - exists ws. split; [constructor; exact A|exact B].
  - destruct (integer_told J s d (asked fl l w' p') v r n Hi) as (t & T & Is & Rd).
    destruct (shown_field J s d _ _ t T) as [w0 F]; [rewrite Is; reflexivity|intros _; exact Np|].
    exists (w0 :: ws). split; [|split; [|exact B]].
    + apply (wd_field wordb J s (mkCtx fl w p d) args t rest); [|exact F|exact A]. apply (pc_shown J s fl w p d args l w' a1 p' (traitsOf J v r)); assumption.
    + split; [exact Is|]. rewrite <- (read_integer_field wordb s t w0); [exact Rd|exact F].
  - destruct Hd0 as [Bw Bp]. cbn [c_width c_prec] in Bw, Bp. pose proof (width_range _ _ _ _ _ _ _ Hw Bw) as Rw. pose proof (prec_range _ _ _ _ _ Hp Bp) as Rp.
    destruct (double_told J s d (asked fl l w' p') v r b HJ Rw Rp Hl Hv Hf) as (t & T & Rd). destruct (lossless_float _ _ Hl) as (Fs & _ & _ & _ & Ni).
    destruct (shown_field J s d _ _ t T) as [w0 F]; [rewrite Fs; apply Bool.orb_true_r|intros E; congruence|].
    exists (w0 :: ws). split; [|split; [|exact B]].
    + apply (wd_field wordb J s (mkCtx fl w p d) args t rest); [|exact F|exact A]. apply (pc_shown J s fl w p d args l w' a1 p' (traitsOf J v r)); assumption.
    + split; [exact (proj2 (double_view J v b r Hv))|]. split; [exact Hf|]. apply (double_field wordb t); assumption.
Qed.

Lemma tells_once s w x y : tells s w x -> tells s w y -> x = y.
Proof.
  intros H H'. destruct x as [n|b], y as [n'|b']; cbn [tells] in *.
  - destruct H as [_ <-], H' as [_ <-]. reflexivity.
  - destruct H as [H0 _], H' as (_ & _ & [[H1 _]|[H1 _]]); destruct s; try discriminate H0; try discriminate H1; destruct H1 as [H1|[H1|[H1|[H1|[H1|H1]]]]]; discriminate H1.
  - destruct H' as [H0 _], H as (_ & _ & [[H1 _]|[H1 _]]); destruct s; try discriminate H0; try discriminate H1; destruct H1 as [H1|[H1|[H1|[H1|[H1|H1]]]]]; discriminate H1.
  - destruct H as (Rb & Fb & H), H' as (Rb' & Fb' & H'). f_equal. unfold in_range in Rb, Rb'. pose proof (magnitude_range b Fb). pose proof (magnitude_range b' Fb').
    destruct H as [[D (x & R1 & R2)]|[D R]], H' as [[D' (x' & R1' & R2')]|[D' R']].
    + destruct (reads_as_unique _ _ _ _ _ R1 R1') as [Es Ex]. apply pattern_eq; [lia|lia|exact Es|].
      apply (C23_reading_is_unique x); [lia|lia|exact R2|]. apply (rounds_eq x'); [symmetry; exact Ex|exact R2'].
    + destruct s; try discriminate D'; destruct D as [D|[D|[D|[D|[D|D]]]]]; discriminate D.
    + destruct s; try discriminate D; destruct D' as [D'|[D'|[D'|[D'|[D'|D']]]]]; discriminate D'.
    + destruct (hex_same _ _ _ _ _ R R') as [Es Ex]. apply pattern_eq; [lia|lia|exact Es|]. apply dval_inj; [lia|lia|exact Ex].
Qed.
Lemma all_tell_once ss : forall ws xs ys, all_tell ss ws xs -> all_tell ss ws ys -> xs = ys.
Proof.
  induction ss as [|s ss IH]; intros [|w ws] [|x xs] [|y ys] H H'; try contradiction; [reflexivity|]. destruct H as [H1 H2], H' as [H1' H2'].
  f_equal; [exact (tells_once s w x y H1 H1')|exact (IH _ _ _ H2 H2')].
Qed.
