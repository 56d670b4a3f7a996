(** Model of the start script of the node, builtin-package/on_start.air, and of the data it is run with,
    builtin-package/on_start.json (the same certificates as distro/init_certs.json). *)
From Coq Require Import List NArith ZArith Bool.
From Coq Require String.
Import String.StringSyntax.
From Verif Require Import Base Text Keys Trust Certificate Relation Storage Graph Service Aqua.
Import ListNotations.
Open Scope N_scope.

(** What [op return] is given: the error of a result, or [true]. on_start.air 1-33. *)
Inductive report := R_error (e : option service_error) | R_true.

(** on_start.air 5-10, 21-26: [xor (match r.success true null) (op return r.error)]. *)
Definition reports (r : response) : list report := if success r then [] else [R_error (error r)].

Section WithCrypto.
Variable C : crypto.
(** Who runs the script, who created the service, the node ([relay]); the origin of [certs]. *)
Variables (me creator node : text) (data : origin).

(** on_start.air 12-30, the fold: each certificate with the answer of [peer.timestamp_sec] and the
    failure of the database in that call. A call that traps ends the script. *)
Fixpoint boot_certs (certs : list (dto_certificate * N * option nat)) (d : db) : result Empty_set (list report) * db :=
  match certs with
  | [] => (Ok [], d)
  | (i, cur_time, fu) :: rest =>
      match service_step C d (mk_params me creator node [data; clock_of node], S_insert_cert i cur_time, fu) with
      | (Ok insert_result, d1) =>
          match boot_certs rest d1 with
          | (Ok l, d2) => (Ok (reports insert_result ++ l), d2)
          | other => other
          end
      | (Err e, d1) => (Err e, d1)
      | (Panic, d1) => (Panic, d1)
      | (OutOfFuel, d1) => (OutOfFuel, d1)
      end
  end.

(** on_start.air as a whole: the reports in order. on_start.air 1-33. *)
Definition boot (fu : option nat) (certs : list (dto_certificate * N * option nat)) (d : db) : result Empty_set (list report) * db :=
  match service_step C d (mk_params me creator node [result_of me [] []; result_of me [] []], S_set_root fluence_root_peer_id 5, fu) with
  | (Ok add_root_res, d1) =>
      match boot_certs certs d1 with
      | (Ok l, d2) => (Ok (reports add_root_res ++ l ++ [R_true]), d2)
      | other => other
      end
  | (Err e, d1) => (Err e, d1)
  | (Panic, d1) => (Panic, d1)
  | (OutOfFuel, d1) => (OutOfFuel, d1)
  end.
End WithCrypto.

(** builtin-package/on_start.json: all trusts are of kind ed25519, made at 1674756468 and valid until
    1737828468 (25 January 2025). [mk_dto_trust issued_for expires_at signature sig_type issued_at]. *)
Definition shipped_trust (p s : text) : dto_trust := mk_dto_trust p 1737828468 s (str "ed25519") 1674756468.
Definition shipped_trust_0 : dto_trust := shipped_trust (str "12D3KooWNbZKaPWRZ8wgjGvrxdJFz9Fq5uVwkR6ERV1f74HhPdyB")
  (str "5ckmaNEw1gNVGk2h8sPsSr7JSumADu6XvuWn8eaZ33etcvfGU5UvnUUtAPwtmc45PZ5dw7F1hbWDQQzu9irFgR4d").
Definition shipped_trust_1 : dto_trust := shipped_trust (str "12D3KooWD2vAZva1u3TQgoxebBUBsaGMNawKjVkp57M6UcwNwXNv")
  (str "2pTTV9B7rZNAZ1kriqN7s64MwE6t2Jwu8HCQZeXaBincZs63BT8HsmfE15sdhyjPeamFirkdfrjbTcGmnj6rUqT4").
Definition shipped_trust_2 : dto_trust := shipped_trust (str "12D3KooWM45u7AQxsb4MuQJNYT3NWHHMLU7JTbBV66RTfF3KSzdR")
  (str "3KxewKYjYvv4XaSpKRpnY6rNaawArLfHCeCsB95tZX9BWdwK3kJTbnsXG8WSUDip9oMC48QJMKinLrivuPDy5Egy").
Definition shipped_trust_3 : dto_trust := shipped_trust (str "12D3KooWSD5PToNiLQwKDXsu8JSysCwUt8BVUJEqCHcDe7P5h45e")
  (str "wRpqimG2Lg8wAu3PGfmTxGuQMaYTZrd5QmjsbwZTfWJELWpqfngrFpDgNUqPZHHj4cfZTJ9gyRSTqTMFDDU2TXv").
Definition shipped_trust_4 : dto_trust := shipped_trust (str "12D3KooWR4cv1a8tv7pps4HH6wePNaK6gf1Hww5wcCMzeWxyNw51")
  (str "VYcXmcRHaSH8BbN5qrV7WCQs9WHJ7Hj25YUqVM1ptv6U4AbY5PPZa75ToRnmYA3jacVbHr7aUiSCup6DA6wxbbs").
Definition shipped_trust_5 : dto_trust := shipped_trust (str "12D3KooWKnEqMfYo9zvfHmqTLpLdiHXPe4SVqUWcWHDJdFGrSmcA")
  (str "4SBUyxAykijkX7WSPFoSjBBjW8yN5SNefU7ojqqS18pPAD7TJZvD2wunASsAah6ctfvng7gUeQKfYRqDpTo46Y9Y").
Definition shipped_trust_6 : dto_trust := shipped_trust (str "12D3KooWHLxVhUQyAuZe6AHMB29P7wkvTNMn7eDMcsqimJYLKREf")
  (str "2dTSfzds7ySvqDVZTAXXGg2wnYnXAqfA8n7mceG7tpi55qCyzF8X86YaQHWhwzKazvfG68vY4za6e5UHDLZwsFcy").
Definition shipped_trust_7 : dto_trust := shipped_trust (str "12D3KooWJd3HaMJ1rpLY1kQvcjRPEvnDwcXrH8mJvk7ypcZXqXGE")
  (str "3ppaDSfnSFGK9hRMr5dZTkUDx27TKDS6P119WS75sTXdBEdVexQLTSynP2efczmfCxxthYLWYShATGejs9mfeVsT").
Definition shipped_trust_8 : dto_trust := shipped_trust (str "12D3KooWFEwNWcHqi9rtsmDhsYcDbRUCDXH84RC4FW6UfsFWaoHi")
  (str "4j6h2z7aHmipWagZdjtow1n9ptJi8fvJNwgLGeaottGepa3rbCcUfByaP3D5CDZP5AeUUXwAW2E91dnPa9NQELAx").
Definition shipped_trust_9 : dto_trust := shipped_trust (str "12D3KooWCMr9mU894i8JXAFqpgoFtx6qnV1LFPSfVc3Y34N4h4LS")
  (str "3YEf3dEGdHZqYcM1B1sE3BsEMt337LU8xS8Pv9v8XtGynghqK6K6pKWzE9qX1C7zHfRPcaq4juTc9xLrYfC2QytR").
Definition shipped_trust_10 : dto_trust := shipped_trust (str "12D3KooWDUszU2NeWyUVjCXhGEt1MoZrhvdmaQQwtZUriuGN1jTr")
  (str "37cEiDjMYywY7Lh1RC3H32qpTcBkgmykPLUyVrW1qmoaSEmXWV6rWdXDaXdVF2VhxxVpwXzSeTAMhJXYDVEn18ch").
Definition shipped_trust_11 : dto_trust := shipped_trust (str "12D3KooWEFFCZnar1cUJQ3rMWjvPQg6yMV2aXWs2DkJNSRbduBWn")
  (str "4J4NbEtFYzpgpdYQaV6zWjwaSxt9HezarAHVHpWvKCr2dn7tGLAuf9D3SnUAAeV537rzvvLdMP9vHHGSdnsccFDt").
Definition shipped_trust_12 : dto_trust := shipped_trust (str "12D3KooWFtf3rfCDAfWwt6oLZYZbDfn9Vn7bv7g6QjjQxUUEFVBt")
  (str "pfYMm7enoq69WVPgcAFYTmWUAejSJXXdKRpk2ffweSVwzJTVE3DwdWYEmbS96emcVFP3gWPm4sLeM5yVLXuzx87").
Definition shipped_trust_13 : dto_trust := shipped_trust (str "12D3KooWD7CvsYcpF9HE9CCV9aY3SJ317tkXVykjtZnht2EbzDPm")
  (str "3FHZheEHCbveBEoS1m41nTESsfSBBixLpdKYSMTgmnk1s5hB9o1VjPdC9XPTnSHsBpnog4ASeRB8b9bzAiz3ZxDD").
Definition shipped : list dto_certificate :=
  [ [shipped_trust_0; shipped_trust_1];
    [shipped_trust_0; shipped_trust_2; shipped_trust_3];
    [shipped_trust_0; shipped_trust_2; shipped_trust_4];
    [shipped_trust_0; shipped_trust_2; shipped_trust_5];
    [shipped_trust_0; shipped_trust_2; shipped_trust_6];
    [shipped_trust_0; shipped_trust_2; shipped_trust_7];
    [shipped_trust_0; shipped_trust_2; shipped_trust_8];
    [shipped_trust_0; shipped_trust_2; shipped_trust_9];
    [shipped_trust_0; shipped_trust_2; shipped_trust_10];
    [shipped_trust_0; shipped_trust_2; shipped_trust_11];
    [shipped_trust_0; shipped_trust_2; shipped_trust_12];
    [shipped_trust_0; shipped_trust_2; shipped_trust_13] ].
