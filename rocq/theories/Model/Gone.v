(** Callers that go away. A caller may cancel its call or lose its connection at any
    time. The handlers that write state put the context of the call into the update
    (core/main.go:212, :263, :767; replicatedticketcache.go:39), where nobody looks at
    it again although it is there "so this request can be cancelled", and block in
    channel operations without looking at it themselves (:205-221, :256-275,
    :755-780); WatchAssignments (:805-872) never looks at
    stream.Context(), and the error of stream.Send is ignored at :864. So the server
    (Model/System.v, Model/RedisSystem.v, Model/Watch.v) goes on as before.

    [g] is the set of the calls whose callers have gone; the call of a watch is
    number 0. *)
From stdpp Require Import prelude gmap.

Section gone.
Context {St : Type} (step : St → St → Prop).

Inductive gone_step : St * gset nat → St * gset nat → Prop :=
| G_server s s' g : step s s' → gone_step (s, g) (s', g)
| G_gives_up s g i : gone_step (s, g) (s, {[i]} ∪ g).
End gone.
