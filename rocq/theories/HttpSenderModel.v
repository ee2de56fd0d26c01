(** Model of the log shipper's HTTP client, ekosis_log_shipper/src/http_sender.cpp, and of its place in the loop of main.cpp;
    the rest of the shipper is ShipperModel. *)
From Coq Require Import Bool List ZArith String.
From Verif Require Import ShipperModel.
Import ListNotations.
Local Open Scope Z_scope.

(** What libcurl reports of one transfer: whether curl_easy_init gave a handle, the CURLcode of curl_easy_perform (0 is
    CURLE_OK), the response code (0: none came) and the bytes of the response. The options set in lines 37-44 are libcurl's
    business; redirections are not followed. *)
Record transfer := mkTr { handle : bool; result : Z; code : Z; body : string }.
(** http_sender.hpp 5-9 *)
Record post_result := mkPR { success : bool; http_status : Z; response_body : string }.
(** http_sender.cpp 28-58; [strerror] is curl_easy_strerror. *)
Definition post_json (strerror : Z -> string) (x : transfer) : post_result :=
  if negb (handle x) then mkPR false 0 "curl_easy_init failed"
  else mkPR ((result x =? 0) && (code x >=? 200) && (code x <? 300)) (code x)
            (if result x =? 0 then body x else strerror (result x)).

Section Client.
Context (good : line -> bool) (strerror : Z -> string).
(** The shipper, the posts made so far with what became of them, and the complaints written to std::cerr (status and detail,
    main.cpp 117-119). In [core], [arrived] is the list of batches whose post succeeded. *)
Record client := mkC { core : sys; posts : list (list line * transfer); complaints : list (Z * string) }.
(** An event of ShipperModel other than [Reply], or the end of a post. *)
Inductive cevent := Ev (e : event) | Posted (x : transfer).
Definition cstep (c : client) (e : cevent) : client :=
  match e with
  | Ev (Reply _ _) => c
  | Ev e => mkC (step good (core c) e) (posts c) (complaints c)
  | Posted x =>      (* main.cpp 111-120 *)
      match ship (core c) with
      | Post t und =>
          let r := post_json strerror x in
          mkC (step good (core c) (Reply (success r) (success r))) (posts c ++ [(und, x)])
              (if success r then complaints c else complaints c ++ [(http_status r, response_body r)])
      | _ => c
      end
  end.
Definition crun (c : client) (es : list cevent) : client := fold_left cstep es c.
Definition cfresh : client := mkC fresh [] [].
End Client.
