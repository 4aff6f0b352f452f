(** * The functions of attributes.rs, run *)
From Coq Require Import String List NArith ZArith Bool Arith Strings.Byte Lia ZifyBool ZifyNat ZifyN.
From Verif Require Import Prelude PreludeFacts Md5 Utf8 Utf8Facts Tag Code Avp AvpFacts Attributes Vsa Packet Rust RustEval CodeRun RustFacts CodeTactics CodeBase.
Import ListNotations.
Local Open Scope string_scope.
Local Open Scope N_scope.
Local Open Scope list_scope.

Section Code.
Context (pr : profile) (rng : nat -> byte) (he : bytes -> option string)
        (ans : list event -> string -> list value -> option value).
Notation C f := (Cx pr (crate_program f) rng he ans).

Lemma run_attributes_add f n l a w : (1 <= n)%nat ->
  run (C f) n "Attributes" "add" [v_attributes l; v_avp a] w
  = RVal VUnit [v_attributes (attributes_add l a); v_avp a] w.
Proof. unfold attributes_add, v_attributes, v_avps; go; rewrite avp_values_app; reflexivity. Qed.
Lemma run_attributes_extend f n l m w : (1 <= n)%nat ->
  run (C f) n "Attributes" "extend" [v_attributes l; v_avps m] w
  = RVal VUnit [v_attributes (attributes_extend l m); v_avps m] w.
Proof.
  unfold attributes_extend, v_attributes, v_avps; destruct l; [change (avp_values []) with (@nil value)|change (avp_values (a :: l)) with (v_avp a :: avp_values l)]; go.
  all: change ((a :: l) ++ m) with (a :: (l ++ m)); change (avp_values (a :: l ++ m)) with (v_avp a :: avp_values (l ++ m)); rewrite avp_values_app; reflexivity.
Qed.
Ltac filtered p := rewrite (filter_avps p); [|intros; steps; try reflexivity; now rewrite b2n_eqb].
Lemma run_attributes_del f n l t w : (1 <= n)%nat ->
  run (C f) n "Attributes" "del" [v_attributes l; vu8 t] w
  = RVal VUnit [v_attributes (attributes_del l t); vu8 t] w.
Proof.
  unfold attributes_del, v_attributes, v_avps; go;
  filtered (fun a => negb (Byte.eqb (avp_typ a) t)); steps; reflexivity.
Qed.
Lemma run_attributes_lookup f n l t w : (1 <= n)%nat ->
  run (C f) n "Attributes" "lookup" [v_attributes l; vu8 t] w
  = RVal (v_option v_avp (attributes_lookup l t)) [v_attributes l; vu8 t] w.
Proof.
  unfold attributes_lookup, v_attributes, v_avps; go;
  (rewrite (find_avps (fun a => Byte.eqb (avp_typ a) t)); [|intros; steps; try reflexivity; now rewrite b2n_eqb]);
  destruct (find _ l); steps; reflexivity.
Qed.
Lemma run_attributes_lookup_all f n l t w : (1 <= n)%nat ->
  run (C f) n "Attributes" "lookup_all" [v_attributes l; vu8 t] w
  = RVal (v_avps (attributes_lookup_all l t)) [v_attributes l; vu8 t] w.
Proof.
  unfold attributes_lookup_all, v_attributes, v_avps; go;
  filtered (fun a => Byte.eqb (avp_typ a) t); steps; reflexivity.
Qed.
Ltac encode_loop l :=
  pose (m := l);
  change (attributes_encode_loop pr l) with (attributes_encode_loop pr m);
  match goal with |- context [for_loop ?b (avp_values l) ?s] => change (for_loop b (avp_values l) s) with (for_loop b (avp_values m) s) end;
  clearbody m; cbn [bytes_of_values]; generalize (@nil byte) as acc;
  let a := fresh "a" in let IH := fresh "IH" in
  induction m as [|a m IH]; intro;
  [change (avp_values []) with (@nil value); rewrite for_loop_nil; steps; reflexivity
  |rewrite avp_values_cons, for_loop_cons; cbn [attributes_encode_loop]; unfold uadd, bind;
   destruct (253 <? len (avp_value a)) eqn:?;
   [steps; reflexivity
   |rewrite b2n_n2b; let X := fresh in assert (X : 2 + len (avp_value a) mod 256 <? 256 = true) by lia; rewrite X; steps;
    rewrite ?n2b_b2n, <- !app_assoc; apply IH]].
Lemma run_attributes_encode f n l w : (1 <= n)%nat ->
  run (C f) n "Attributes" "encode" [v_attributes l] w
  = v_result v_text v_bytes (attributes_encode pr l) [v_attributes l] w.
Proof.
  unfold attributes_encode, v_attributes, v_avps; go; encode_loop l.
Qed.
Ltac decode_loop n bs :=
  pose (k := n);
  match goal with |- context [while_loop n ?c ?b ?s] => change (while_loop n c b s) with (while_loop k c b s) end;
  assert (Hk : (length bs <= k)%nat) by (unfold k; lia); clearbody k;
  pose (t := Lit); assert (Ht : t = Lit /\ 0 = 0 \/ t = Usize) by (now left);
  match goal with |- context [("i", VInt Lit 0)] => change (VInt Lit 0) with (VInt t 0) end; clearbody t;
  assert (Hm : (N.to_nat (len bs - 0) <= length bs)%nat) by (unfold len; lia);
  pose (i := 0); change (attributes_decode_loop (length bs) bs 0 []) with (attributes_decode_loop (length bs) bs i []);
  change (VInt t 0) with (VInt t i); change (t = Lit /\ 0 = 0) with (t = Lit /\ i = 0) in Ht;
  change (len bs - 0) with (len bs - i) in Hm; clearbody i;
  pose (acc := @nil avp);
  match goal with |- context [("attrs", VList [])] => change (VList []) with (VList (avp_values acc)) end;
  change (attributes_decode_loop (length bs) bs i []) with (attributes_decode_loop (length bs) bs i acc); clearbody acc;
  revert k t i acc Hk Ht Hm; generalize (length bs) as m;
  induction m as [|m IH]; intros; rewrite while_loop_eq; cbn [attributes_decode_loop];
  destruct (i <? len bs) eqn:?; [lia| |destruct k as [|k]; [lia|]|]; cbn [negb];
  destruct Ht as [[-> ->] | ->]; steps; try reflexivity;
  byte_bounds; try (exfalso; lia); unfold slice_from, index, slice, bind; rhs; try reflexivity;
  repeat match goal with D : ?x = Some _, D' : ?x = Some _ |- _ => rewrite D in D'; injection D' as <- end;

  match goal with |- _ = v_result _ _ (attributes_decode_loop _ _ _ (?l ++ [?a])) _ _ =>
    rewrite <- IH with (k := k) (t := Usize);
    [rewrite avp_values_app; reflexivity|lia|now right|lia] end.
Lemma run_attributes_decode f n bs w : len bs < 9223372036854775808 -> (length bs + 1 <= n)%nat ->
  run (C f) n "Attributes" "decode" [v_bytes bs] w
  = v_result v_text v_attributes (attributes_decode bs) [v_bytes bs] w.
Proof.
  unfold attributes_decode; go; decode_loop n bs.
Qed.
Definition raw_attributes_add := ltac:(raw run_attributes_add).
Definition raw_attributes_extend := ltac:(raw run_attributes_extend).
Definition raw_attributes_del := ltac:(raw run_attributes_del).
Definition raw_attributes_lookup := ltac:(raw run_attributes_lookup).
Definition raw_attributes_lookup_all := ltac:(raw run_attributes_lookup_all).
Definition raw_attributes_encode := ltac:(raw run_attributes_encode).
End Code.
#[global] Hint Rewrite raw_attributes_add raw_attributes_extend raw_attributes_del raw_attributes_lookup
  raw_attributes_lookup_all raw_attributes_encode using lia : code.
