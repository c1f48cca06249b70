(** C82 Paths in the system configuration *)
From Verif Require Import Base KeyFile Config ConfigSpec Paths PathsSpec PathsProofs.
Open Scope list_scope.

(** Absolute paths and PKCS#11 URLs are used as they are written. *)
Theorem C82_unchanged : forall cwd file p, absolute p \/ pkcs11 p -> resolve_path cwd file p = p.
Proof. exact c82_unchanged_ok. Qed.
Print Assumptions C82_unchanged.
(** A relative path leads to what it leads to in the directory of the configuration file - however the name of that file was
    given and from wherever the path is used later. *)
Theorem C82_relative : forall t cwd c file d p, absolute cwd -> (forall any, finds t any cwd c) -> directory t c -> lies_in t c file d ->
  ~ absolute p -> ~ pkcs11 p ->
  absolute (resolve_path cwd (Some file) p) /\ forall later x, finds t later (resolve_path cwd (Some file) p) x <-> finds t d p x.
Proof. exact c82_relative_ok. Qed.
Print Assumptions C82_relative.
Theorem C82_means : forall t cwd c file d p, absolute cwd -> (forall any, finds t any cwd c) -> directory t c -> lies_in t c file d ->
  means t d p (resolve_path cwd (Some file) p).
Proof. exact c82_means_ok. Qed.
Print Assumptions C82_means.
(** Without a configuration file: the directory rauc was started in. *)
Theorem C82_no_file : forall t cwd c p, absolute cwd -> (forall any, finds t any cwd c) -> ~ absolute p -> ~ pkcs11 p ->
  absolute (resolve_path cwd None p) /\ forall later x, finds t later (resolve_path cwd None p) x <-> finds t c p x.
Proof. exact c82_no_file_ok. Qed.
Print Assumptions C82_no_file.
(** From the text of the file to the keyring, the handlers and the devices of the slots. *)
Theorem C82_config : forall t cwd c file d o1 o2 o3 kf cfg u,
  absolute cwd -> (forall any, finds t any cwd c) -> directory t c -> lies_in t c file d -> NoDup (kf_groups kf) ->
  load_config o1 o2 o3 kf = Ok cfg -> u = use_paths cwd (Some file) cfg ->
  opt_means t d (file_string kf "keyring" "path") (u_keyring u) /\ opt_means t d (file_string kf "keyring" "directory") (u_keydir u) /\
  opt_means t d (file_string kf "handlers" "system-info") (u_system_info u) /\
  opt_means t d (file_string kf "handlers" "pre-install") (u_pre u) /\ opt_means t d (file_string kf "handlers" "post-install") (u_post u) /\
  (forall n, In ("slot." ++ n)%string (kf_groups kf) <-> exists dev, In (n, dev) (u_devices u)) /\
  (forall n dev, In (n, dev) (u_devices u) -> exists w, file_string kf ("slot." ++ n) "device" = Some w /\ means t d w dev).
Proof. exact c82_config_ok. Qed.
Print Assumptions C82_config.
(** data-directory and statusfile *)
Theorem C82_status : forall t cwd c file d dd s, absolute cwd -> (forall any, finds t any cwd c) -> directory t c -> lies_in t c file d ->
  (forall p, dd = Some p -> ~ pkcs11 p) ->
  match dd, s, status_location cwd (Some file) dd s with
  | None, None, Some (None, s') => s' = "per-slot"
  | None, Some s, Some (None, s') => (s = "per-slot" -> s' = s) /\ (s <> "per-slot" -> means t d s s')
  | Some p, None, Some (Some p', s') => means t d p p' /\ absolute s' /\
      forall later x, finds t later s' x <-> exists y, finds t d p y /\ t_step t y "central.raucs" = Some x
  | Some p, Some s, Some (Some p', s') => means t d p p' /\ means t d s s' /\ s <> "per-slot"
  | Some _, Some s, None => s = "per-slot"
  | _, _, _ => False
  end.
Proof. exact c82_status_ok. Qed.
Print Assumptions C82_status.

(** A tree: every list of names is a directory, "." and ".." as usual. *)
Definition ex_tree : tree := mkTree (list string) []
  (fun d n => if String.eqb n "." then Some d else if String.eqb n ".." then Some (removelast d) else Some (d ++ [n])).
Example ex_cwd : absolute "/home/user" /\ (forall any, finds ex_tree any "/home/user" ["home"; "user"]) /\ directory ex_tree ["home"; "user"].
Proof. split; [now eexists|]. split; [intros any; reflexivity|reflexivity]. Qed.
Example ex_lies : lies_in ex_tree ["home"; "user"] "test//system.conf" ["home"; "user"; "test"].
Proof. exists "test//", "system.conf". split; [reflexivity|]. split; [reflexivity|]. split; [discriminate|]. split; [right; now exists "test/"|reflexivity]. Qed.
Example ex_lies_here : lies_in ex_tree ["home"; "user"] "system.conf" ["home"; "user"].
Proof. exists "", "system.conf". split; [reflexivity|]. split; [reflexivity|]. split; [discriminate|]. split; [now left|reflexivity]. Qed.
Example ex_lies_abs : lies_in ex_tree ["home"; "user"] "/etc/rauc/system.conf" ["etc"; "rauc"].
Proof. exists "/etc/rauc/", "system.conf". split; [reflexivity|]. split; [reflexivity|]. split; [discriminate|]. split; [right; now exists "/etc/rauc"|reflexivity]. Qed.
Example ex_relative : ~ absolute "ca.cert.pem" /\ ~ pkcs11 "ca.cert.pem" /\
  resolve_path "/home/user" (Some "/etc/rauc/system.conf") "ca.cert.pem" = "/etc/rauc/ca.cert.pem" /\
  resolve_path "/home/user" (Some "system.conf") "certs/ca.pem" = "/home/user/./certs/ca.pem" /\
  resolve_path "/home/user" (Some "test//system.conf") "../ca.pem" = "/home/user/test/../ca.pem" /\
  resolve_path "/home/user" None "bundle.raucb" = "/home/user/bundle.raucb" /\
  resolve_path "/home/user" (Some "/system.conf") "a" = "/a".
Proof. split; [intros (r & H); discriminate|]. split; [intros (r & H); discriminate|]. repeat split; reflexivity. Qed.
Definition ex_kf : keyfile :=
  [("system", [("compatible", "x"); ("bootloader", "noop"); ("data-directory", "data")]); ("keyring", [("path", "ca.cert.pem")]);
   ("handlers", [("post-install", "/usr/bin/post")]); ("slot.rootfs.0", [("device", "images/rootfs-0")]); ("slot.rootfs.1", [("device", "/dev/sda3")])].
Example ex_config : exists cfg, load_config (fun l => l) (fun l => l) (fun l => l) ex_kf = Ok cfg /\ NoDup (kf_groups ex_kf) /\
  use_paths "/home/user" (Some "test//system.conf") cfg = mkUsed (Some "/home/user/test/ca.cert.pem") None None None (Some "/usr/bin/post") None None
    [("rootfs.0", "/home/user/test/images/rootfs-0"); ("rootfs.1", "/dev/sda3")] [] "/mnt/rauc/".
Proof. eexists. split; [vm_compute; reflexivity|]. split; [|vm_compute; reflexivity]. repeat constructor; cbn; intuition discriminate. Qed.
Example ex_status : status_location "/home/user" (Some "/etc/rauc/system.conf") (Some "data") None = Some (Some "/etc/rauc/data", "/etc/rauc/data/central.raucs") /\
  status_location "/home/user" (Some "/etc/rauc/system.conf") (Some "data") (Some "per-slot") = None /\
  status_location "/home/user" (Some "/etc/rauc/system.conf") None (Some "s.raucs") = Some (None, "/etc/rauc/s.raucs").
Proof. repeat split; reflexivity. Qed.
