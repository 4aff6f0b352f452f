(** * The text of [main] of examples/server.rs, run *)
From Coq Require Import String List NArith ZArith Bool Arith Strings.Byte Strings.Ascii Lia ZifyBool ZifyNat ZifyN.
From Verif Require Import Prelude PreludeFacts Md5 Utf8 Utf8Facts Tag Code Avp AvpFacts Attributes Vsa Packet Addr Display Accessors Rfc Server Client ExampleApp
  Rust RustEval RustModule RustLink CodeApp CodeExample Sources SourceApp CodeRun CodeHash RustFacts CodeTactics CodeBase CodeAttributes CodePacket CodeNet CodeClient CodeServer CodeListen CodeAccessors CodeModules PropModules.
Import ListNotations.
Local Open Scope string_scope.
Local Open Scope N_scope.
Local Open Scope list_scope.

(** ** examples/server.rs: [main] *)
(** examples/server.rs 17-38; [process::exit] does not return *)
Definition text_server_main (b : option (io unit)) (ln : line) k tr : rout :=
  let bound a := Event "UdpSocket::bind" [v_text "0.0.0.0:1812"] a in
  match b with
  | None => RWait (World k (bound None :: tr))
  | Some (IoErr _) => RPanic
  | Some (IoOk _) =>
      match text_run ln [] DEFAULT_SKIP_AUTHENTICITY_VALIDATION DEFAULT_BUFFER_SIZE k (bound (Some (vok (VExt "conn"))) :: tr) with
      | RVal (VCtor "" "Ok" _) _ w => RVal VUnit [] w
      | RVal _ _ w => RWait (World (w_random w) (Event "process::exit" [VInt Lit 1] None :: w_trace w))
      | o => o
      end
  end.
Section Server.
Context (pr : profile) (rng : nat -> byte) (he : bytes -> option string) (ln : line).
Notation C f := (Cx pr (crate_program f) rng he (line_of ln)).
Notation server f := (Link (C f) used_modules server_own server_objects).
Definition bind_answer (b : option (io unit)) : option value := option_map (v_io (fun _ => VExt "conn")) b.
Lemma linked_listen f n b k tr : (2 <= n)%nat ->
  ln_other ln tr "UdpSocket::bind" [v_text "0.0.0.0:1812"] = bind_answer b ->
  linked (server f) n "Server" "listen" [v_text "0.0.0.0"; VInt Lit 1812; VStruct "MyRequestHandler" []; VStruct "MySecretProvider" []] (World k tr)
  = let ps := [v_text "0.0.0.0"; VInt U16 1812; VExt "handler"; VExt "provider"] in
    let w := World k (Event "UdpSocket::bind" [v_text "0.0.0.0:1812"] (bind_answer b) :: tr) in
    match b with
    | Some (IoOk _) => RVal (vok (v_server DEFAULT_SKIP_AUTHENTICITY_VALIDATION DEFAULT_BUFFER_SIZE)) ps w
    | Some (IoErr e) => RVal (verr (VError (bytes_of_string e))) ps w
    | None => RWait w
    end.
Proof.
  intros Hn Hb. destruct f; (erewrite linked_crate by (vm_compute; reflexivity)); cbn [map export lk_objects lk_crate server_objects].
  all: erewrite (run_args _ n "Server" "listen" _ [v_text "0.0.0.0"; VInt U16 1812; VExt "handler"; VExt "provider"]) by (vm_compute; reflexivity).
  all: rewrite (run_listen pr rng he (line_of ln) _ n "0.0.0.0" 1812 b k tr Hn) by (destruct b as [[|]|]; exact Hb).
  all: destruct b as [[|]|]; reflexivity.
Qed.
Lemma linked_set_buffer_size f n skip buf_size w : (1 <= n)%nat ->
  linked (server f) n "Server" "set_buffer_size" [v_server skip buf_size; VInt Lit 1500] w
  = RVal VUnit [v_server skip 1500; v_usize 1500] w.
Proof.
  intros Hn. destruct f; (erewrite linked_crate by (vm_compute; reflexivity)); cbn [map export lk_crate].
  all: erewrite (run_args _ n "Server" "set_buffer_size" _ [v_server skip buf_size; v_usize 1500]) by (vm_compute; reflexivity).
  all: now apply run_set_buffer_size.
Qed.
Lemma linked_set_skip f n skip buf_size b w : (1 <= n)%nat ->
  linked (server f) n "Server" "set_skip_authenticity_validation" [v_server skip buf_size; VBool b] w
  = RVal VUnit [v_server b buf_size; VBool b] w.
Proof.
  intros Hn. destruct f; (erewrite linked_crate by (vm_compute; reflexivity)); now apply run_set_skip.
Qed.
Lemma linked_run f n skip buf_size k tr : receptions tr = O -> (length (ln_receptions ln) + 4 <= n)%nat ->
  linked (server f) n "Server" "run" [v_server skip buf_size; VExt "shutdown"] (World k tr)
  = text_run ln [v_server skip buf_size; VExt "shutdown"] skip buf_size k tr.
Proof.
  intros Hr Hn. destruct f; (erewrite linked_crate by (vm_compute; reflexivity)); now apply run_server_run.
Qed.
Lemma run_example_main f n b k tr : receptions tr = O -> (length (ln_receptions ln) + 5 <= n)%nat ->
  ln_other ln tr "UdpSocket::bind" [v_text "0.0.0.0:1812"] = bind_answer b ->
  (forall tr' args, ln_other ln tr' "process::exit" args = None) ->
  linked (server f) n "" "main" [] (World k tr) = text_server_main b ln k tr.
Proof.
  intros Hr Hn Hb Hx.
  assert (Hx' : forall tr' args, line_of ln tr' "process::exit" args = None) by exact Hx.
  pose proof (fun m Hm => linked_listen f m b k tr Hm Hb) as G1.
  pose proof (fun m w => linked_set_buffer_size f m DEFAULT_SKIP_AUTHENTICITY_VALIDATION DEFAULT_BUFFER_SIZE w) as G2.
  pose proof (fun m w => linked_set_skip f m DEFAULT_SKIP_AUTHENTICITY_VALIDATION 1500 false w) as G3.
  pose proof (fun m => linked_run f m false 1500 k (Event "UdpSocket::bind" [v_text "0.0.0.0:1812"] (Some (vok (VExt "conn"))) :: tr) Hr) as G4.
  cbv beta iota zeta in G1. unfold text_server_main, text_run in *.
  unfold DEFAULT_SKIP_AUTHENTICITY_VALIDATION, DEFAULT_BUFFER_SIZE in *.
  match type of G4 with context [loop_trace ?a ?b ?c ?d] => revert G4; generalize (loop_trace a b c d) as ltr; intros ltr G4 end.
  generalize dependent (length (ln_receptions ln)); intros len Hn G4.
  unfold v_server, v_text, v_usize in *.
  unfold vok, verr in *.
  destruct b as [[|]|]; cbn [bind_answer option_map v_io] in *; unfold vok, verr in *; [destruct (ln_broken ln); [|destruct (ln_stop ln)]|..];
    linked_start; app_steps; reflexivity.
Qed.
End Server.
