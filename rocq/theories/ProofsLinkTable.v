(** The tables of link settings are the rules. *)
From Coq Require Import QArith Qround Sorted.
From Verif Require Import Base BaseProofs ModelVendorFn ModelLink SpecLink.
Open Scope Z_scope.

(** ** The tables are the rules *)
Lemma carries_b g w dw f : carriesb g w dw f = true <-> carries g w dw f.
Proof. apply Z.leb_le. Qed.
Ltac in_list := cbn; repeat (first [left; reflexivity | right]); fail.
Ltac each_row H := cbn [valid_configs us_configs usp_configs s10_configs ptile_configs In] in H;
  repeat (destruct H as [H|H]; [injection H as <- <- <- <-|]); [..|destruct H].
Lemma table_allowed v port g w dw f : In (g, w, dw, f) (valid_configs v) -> port_lanes v port w = true -> allowed v port dw g w f.
Proof.
  intros H P. destruct v; cbn [allowed].
  - clear P. each_row H;
      (unfold xilinx_rule, narrowest; split; [in_list|]; split; [in_list|]; split; [in_list|]; split;
       [rewrite <- !carries_b; split; [reflexivity|]; first [left; reflexivity|right; discriminate]|lia]).
  - clear P. each_row H;
      (unfold xilinx_rule, narrowest; split; [in_list|]; split; [in_list|]; split; [in_list|]; split;
       [rewrite <- !carries_b; split; [reflexivity|]; first [left; reflexivity|right; discriminate]|lia]).
  - clear P. each_row H;
      (unfold s10_rule; split; [in_list|]; split; [in_list|]; split; [apply carries_b; reflexivity|]; rewrite <- !carries_b;
       first [left; split; [reflexivity|]; first [left; reflexivity|right; split; [reflexivity|discriminate]]
             |right; split; [reflexivity|]; split; [reflexivity|discriminate]]).
  - each_row H; cbn [port_lanes] in P;
      (unfold ptile_rule; cbv zeta; split; [in_list|]; split; [lia|]; split; [lia|]; cbn [In]; lia).
Qed.
Ltac split_ins := repeat match goal with
  | H : In _ (_ :: _) |- _ => destruct H as [<-|H]
  | H : In _ [] |- _ => destruct H
  | H : _ \/ _ |- _ => destruct H as [H|H]
  | H : _ /\ _ |- _ => destruct H as [? H]
  end.
Ltac concrete := repeat match goal with
  | H : ~ carries _ _ _ _ |- _ => first [exfalso; apply H; apply carries_b; reflexivity|clear H]
  | H : carries _ _ _ _ |- _ => first [apply carries_b in H; discriminate H|clear H]
  end.
Lemma allowed_table v port g w dw f : allowed v port dw g w f -> In (g, w, dw, f) (valid_configs v) /\ port_lanes v port w = true.
Proof.
  destruct v; cbn [allowed]; intros H.
  - destruct H as (G & W & D & (C & N) & F). split; [|reflexivity].
    cbn [In] in G, W, D. destruct F as [(-> & ->)|[(-> & F)|F]]; [| |subst f]; split_ins; subst; try lia; concrete; in_list.
  - destruct H as (G & W & D & (C & N) & F). split; [|reflexivity].
    destruct F as [(-> & ->)|[(-> & F)|F]]; [| |subst f]; split_ins; subst; try lia; concrete; in_list.
  - destruct H as (G & W & C & F). split; [|reflexivity]. split_ins; subst; concrete; in_list.
  - destruct H as (W & P1 & P2 & R). cbv zeta in R. split.
    + clear P1 P2. split_ins; subst; try lia; in_list.
    + cbn [port_lanes]. lia.
Qed.
