(** The Java server and the Java client of a model: their methods as data, their text, and how they follow from the model. *)
From Verif Require Import GoStr Value Schema SpecTime SpecMisc SpecModel SpecPV SpecTrace SpecGo SpecGen SpecGoServer SpecJava.

(** ** Methods of the server *)
Inductive jplace := AtQuery (key : string) | AtHeader (key : string) | AtPath | AtBody.
Record jparam := mkJP { jp_name : string; jp_place : jplace; jp_type : jtype; jp_default : option string }.
(** a body that is a text is turned into JSON before *)
Record jresource := mkJR {
  jr_method : string; jr_path : string; jr_name : string; jr_class : string; jr_params : list jparam;
  jr_status : Z; jr_answers : bool;                          (* does the answer have outputs *)
  jr_headers : list (string * string);                       (* header and field *)
  jr_entity : option (string * bool);                        (* field, and is it a text *)
  jr_errors : list (jtype * Z) }.

(** ** Methods of the client *)
Record jcall := mkJC {
  jc_method : string; jc_path : string; jc_name : string; jc_class : string;
  jc_target : list (string * jplace);                        (* fields in the path and in the query *)
  jc_headers : list (string * string);                       (* field and header *)
  jc_body : option string;                                   (* field *)
  jc_status : Z; jc_answer : option (option (string * jtype) * list (string * string * jtype));   (* none; the body, and field, header and type of the headers *)
  jc_built : string;                                         (* first part of the class that is built for an answer *)
  jc_errors : list (Z * string) }.

Section Text.
Context (quote : string -> string) (int_text : Z -> string) (immutable service_exception : bool) (header pkg model_package name service root : string).
Definition import_model : string := if string_dec model_package "" then line "" else line ("import " +++ model_package +++ ".*;").

Definition place_text (n : string) (p : jplace) : string :=
  match p with
  | AtQuery k => "@QueryParam(""" +++ k +++ """) " | AtHeader k => "@HeaderParam(""" +++ k +++ """) " | AtPath => "@PathParam(""" +++ n +++ """) " | AtBody => ""
  end.
Definition param_text (p : jparam) : string :=
  match jp_default p with Some d => "@DefaultValue(" +++ quote d +++ ") " | None => "" end
  +++ place_text (jp_name p) (jp_place p) +++ jtype_text (jp_type p) +++ " " +++ jp_name p.
(** the names of the controller are small *)
Definition small (n : string) : string := match n with EmptyString => "" | String c r => lower1 c +++ r end.
Definition controller (n : string) : string := small n +++ "Controller".
Definition gone (s : Z) : bool := ((s =? 204) || (s =? 304))%Z%bool.
(** the class of the exceptions that are for every action is told apart already *)
Definition told_apart (r : jresource) : list (jtype * Z) := filter (fun e => if string_dec (jtype_text (fst e)) "ServiceException" then false else true) (jr_errors r).
Fixpoint branches (first : bool) (l : list (jtype * Z)) : string :=
  match l with
  | [] => ""
  | e :: l => line ("            " +++ (if first then "" else "} else ") +++ "if (entity instanceof " +++ jtype_text (fst e) +++ ") {")
              +++ line ("                status = " +++ int_text (snd e) +++ ";")
              +++ (if gone (snd e) then line "                entity = null;" else "") +++ branches false l
  end.
Definition errors_text (r : jresource) : string :=
  if service_exception then
    line "        } catch (ServiceException se) {" +++ line "            Object entity = se.entity == null? se : se.entity;" +++ line "            int status = 500;"
    +++ branches true (told_apart r) +++ match told_apart r with [] => "" | _ => line "            }" end
    +++ (if existsb (fun e => gone (snd e)) (told_apart r) then
           line "            if (entity == null) {" +++ line "                throw new WebApplicationException(status);" +++ line "            }" else "")
    +++ line "            throw new WebApplicationException(Response.status(status).entity(entity).build());"
  else each (fun e => line ("        } catch (" +++ jtype_text (fst e) +++ " e) {")
                      +++ line ("                throw new WebApplicationException(Response.status(" +++ int_text (snd e) +++ ").entity(e).build());")) (jr_errors r).
Definition entity_text (e : string * bool) : string :=
  let v := if immutable then "res.get" +++ big_first (fst e) +++ "()" else "res." +++ fst e in if snd e then "Util.toJson(" +++ v +++ ")" else v.
Definition answer_text (r : jresource) : string :=
  let call := controller name +++ "." +++ jr_name r +++ "(req);" in
  line ("            " +++ (if jr_answers r then jr_class r +++ "Response res = " else "") +++ call)
  +++ line ("            return Response.status(" +++ int_text (jr_status r) +++ ")"
            +++ each (fun h => ".header(""" +++ fst h +++ """, res.get" +++ big_first (snd h) +++ "())") (jr_headers r)
            +++ match jr_entity r with Some e => ".entity(" +++ entity_text e +++ ")" | None => "" end +++ ".build();").
Definition resource_text (r : jresource) : string :=
  line "" +++ line "    " +++ line ("    @" +++ jr_method r) +++ line ("    @Path(""" +++ jr_path r +++ """)") +++ line "    @Produces(MediaType.APPLICATION_JSON)"
  +++ line ("    public Response " +++ jr_name r +++ "(" +++ join ", " (map param_text (jr_params r)) +++ ") {")
  +++ line ("        " +++ jr_class r +++ "Request req = "
            +++ (if immutable then jr_class r +++ "Request.builder()" else "new " +++ jr_class r +++ "Request()")
            +++ each (fun p => "." +++ jp_name p +++ "(" +++ jp_name p +++ ")") (jr_params r) +++ (if immutable then ".build()" else "") +++ ";")
  +++ line "        try {" +++ answer_text r +++ errors_text r
  +++ line "        } catch (Throwable th) {" +++ line "            return Response.status(500).build();" +++ line "        }" +++ line "    }".
Definition resources_file (rs : list jresource) : string :=
  java_text header pkg
    (line "" +++ import_model +++ line "import java.util.*;" +++ line "import java.time.Instant;" +++ line "import javax.inject.Inject;"
     +++ line "import javax.ws.rs.*;" +++ line "import javax.ws.rs.core.*;" +++ line "import static javax.ws.rs.core.Response.Status;"
     +++ line "import com.fasterxml.jackson.annotation.JsonInclude;" +++ line "import com.fasterxml.jackson.annotation.JsonInclude.Include;"
     +++ line "import com.fasterxml.jackson.databind.ObjectMapper;" +++ line "import com.fasterxml.jackson.databind.SerializationFeature;"
     +++ line "import com.fasterxml.jackson.databind.DeserializationFeature;" +++ line ""
     +++ line ("@Path(""" +++ root +++ """)") +++ line ("public class " +++ service +++ "Resources {") +++ line "    @Inject"
     +++ line ("    private " +++ service +++ " " +++ controller service +++ ";") +++ each resource_text rs +++ line "" +++ line "" +++ line "}").
(** stubs for an implementation *)
Definition stub_text (ac : string * string) : string :=
  line "" +++ line ("    public " +++ snd ac +++ "Response " +++ fst ac +++ "(" +++ snd ac +++ "Request req) {")
  +++ line ("        return " +++ (if immutable then snd ac +++ "Response.builder().build()" else "new " +++ snd ac +++ "Response()") +++ "; //implement me!") +++ line "    }".
Definition stubs_file (acs : list (string * string)) : string :=
  java_text header ""
    (line "" +++ line "// Stubs for an implementation of the service follow" +++ import_model +++ line ""
     +++ line ("public class " +++ service +++ "Controller implements " +++ service +++ " {") +++ each stub_text acs +++ line "" +++ line "}").

Definition get (n : string) : string := "req.get" +++ big_first n +++ "()".
Definition target_text (t : string * jplace) : string :=
  match snd t with
  | AtPath => line "" +++ "            .resolveTemplate(""" +++ fst t +++ """, " +++ get (fst t) +++ ", true)"
  | AtQuery k => line "" +++ "            .queryParam(""" +++ k +++ """, " +++ get (fst t) +++ ")"
  | _ => ""
  end.
Definition read_text (x : string * string * jtype) : string :=
  let '(n, k, t) := x in
  let v := "response.getHeaderString(""" +++ k +++ """)" in
  line ("            " +++ jtype_text t +++ " " +++ n +++ " = " +++ (if string_dec (jtype_text t) "Instant" then "Instant.parse(" +++ v +++ ")" else v) +++ ";").
Definition set_text (n : string) : string := line ("                ." +++ n +++ "(" +++ n +++ ")").
Definition call_text (c : jcall) : string :=
  line "" +++ line ("    public " +++ jc_class c +++ "Response " +++ jc_name c +++ "(" +++ jc_class c +++ "Request req) {")
  +++ line ("        WebTarget target = client.target(config.getTarget()).path(""" +++ jc_path c +++ """)" +++ each target_text (jc_target c) +++ ";")
  +++ line ("        Invocation.Builder inv = target.request(MediaType.APPLICATION_JSON)"
            +++ each (fun h => line "" +++ "            .header(""" +++ snd h +++ """, " +++ get (fst h) +++ ")") (jc_headers c) +++ ";")
  +++ line ("        Response response = inv." +++ to_lower (jc_method c) +++ "("
            +++ match jc_body c with Some n => "Entity.entity(" +++ get n +++ ", MediaType.APPLICATION_JSON)" | None => "" end +++ ");")
  +++ line "        switch (response.getStatus()) {" +++ line ("        case " +++ int_text (jc_status c) +++ ":")
  +++ match jc_answer c with
      | None => line "            return null; //shoudn't this be void?!"
      | Some (entity, headers) =>
          match entity with Some (n, t) => line ("            " +++ jtype_text t +++ " " +++ n +++ " = response.readEntity(" +++ jtype_text t +++ ".class);") | None => "" end
          +++ each read_text headers +++ line ("            return " +++ jc_built c +++ "Response.builder()")
          +++ match entity with Some (n, _) => set_text n | None => "" end +++ each (fun x => set_text (fst (fst x))) headers +++ line "                .build();"
      end
  +++ each (fun e => line ("        case " +++ int_text (fst e) +++ ":") +++ line ("            throw response.readEntity(" +++ snd e +++ ".class);")) (jc_errors c)
  +++ line "        default:" +++ line "            throw new RuntimeException(""Unexpected service response status: "" + response.getStatus());" +++ line "        }"
  +++ line "    }".
Definition client_file (cs : list jcall) : string :=
  java_text header pkg
    (line "" +++ import_model +++ line "import java.time.Instant;" +++ line "import javax.ws.rs.client.Client;" +++ line "import javax.ws.rs.client.ClientBuilder;"
     +++ line "import javax.ws.rs.client.Entity;" +++ line "import javax.ws.rs.client.WebTarget;" +++ line "import javax.ws.rs.client.Invocation;"
     +++ line "import javax.ws.rs.core.MediaType;" +++ line "import javax.ws.rs.core.Response;" +++ line "import javax.ws.rs.WebApplicationException;" +++ line ""
     +++ line ("public class " +++ service +++ "Client implements " +++ service +++ " {") +++ line "    private static Client client = ClientBuilder.newClient();"
     +++ line ("    private static final String base = """ +++ root +++ """;") +++ line "    private ClientConfig config;" +++ line ""
     +++ line ("    public " +++ service +++ "Client(ClientConfig conf) {") +++ line "        config = conf;" +++ line "    }"
     +++ each call_text cs +++ line "" +++ line "}").
Definition config_file : string := java_text header pkg (line "" +++ line "public interface ClientConfig {" +++ line "    public String getTarget();" +++ line "}").
End Text.

(** ** How they follow from the model *)
(** a type that is used by its name only *)
Definition java_name (sch : schema) (instants : bool) (n : string) (r : bool) (t : jtype) : Prop := exists a, java_use sch instants None n r t a.
Section Shown.
Context (by_name : string -> bool -> jtype -> Prop) (dec_text : decimal -> string).
Inductive placed (p : paramspec) : jplace -> Prop :=
| pl_query : ps_query p <> "" -> placed p (AtQuery (ps_query p))
| pl_header : ps_query p = "" -> ps_header p <> "" -> placed p (AtHeader (ps_header p))
| pl_path : ps_query p = "" -> ps_header p = "" -> ps_path p = true -> placed p AtPath
| pl_body : java_body p -> placed p AtBody.
Inductive default_shown : value -> option string -> Prop :=
| ds_none : default_shown VNil None
| ds_text s : default_shown (VPStr s) (Some s)
| ds_number d : default_shown (VDec d) (Some (dec_text d))
| ds_bool b : default_shown (VBool b) (Some (if b then "true" else "false")).
Definition jparam_shown (p : paramspec) (q : jparam) : Prop :=
  jp_name q = fd_name (ps_field p) /\ placed p (jp_place q) /\ by_name (param_type p) false (jp_type q) /\ default_shown (fd_default (ps_field p)) (jp_default q).
Definition header_outputs (ps : list paramspec) : list paramspec := filter (fun p => if string_dec (ps_header p) "" then false else true) ps.
(** the output that is the body of the answer; a name that is no name stands for none *)
Definition entity_shown (outs : list paramspec) (e : option (string * bool)) : Prop :=
  (exists p t, first plain_output outs p /\ by_name (param_type p) true t
     /\ e = let n := fd_name (ps_field p) in
            if in_dec string_dec n [""; "void"] then None else Some (n, if string_dec (jtype_text t) "String" then true else false))
  \/ (forall p, In p outs -> ~ plain_output p) /\ e = None.
Definition resource_shown (h : httpdef) (r : jresource) : Prop :=
  exists x, h_expected h = Some x /\ method_named h (jr_name r) (jr_class r) /\ jr_method r = h_method h /\ path_part (h_path h) (jr_path r)
  /\ Forall2 jparam_shown (h_inputs h) (jr_params r) /\ jr_status r = xp_status x /\ (jr_answers r = true <-> xp_outputs x <> [])
  /\ jr_headers r = map (fun p => (ps_header p, fd_name (ps_field p))) (header_outputs (xp_outputs x))
  /\ (forall p, In p (header_outputs (xp_outputs x)) -> fd_name (ps_field p) <> "")
  /\ entity_shown (xp_outputs x) (jr_entity r)
  /\ Forall2 (fun c e => by_name (xc_type c) true (fst e) /\ snd e = xc_status c) (h_exceptions h) (jr_errors r).

(** the types a method of the server names *)
Inductive resource_names (h : httpdef) : string -> bool -> Prop :=
| rn_input p : In p (h_inputs h) -> resource_names h (param_type p) false
| rn_output x p : h_expected h = Some x -> first plain_output (xp_outputs x) p -> resource_names h (param_type p) true
| rn_error c : In c (h_exceptions h) -> resource_names h (xc_type c) true.

(** in the client the path comes before the query *)
Inductive target_shown : list paramspec -> list (string * jplace) -> Prop :=
| ts_nil : target_shown [] []
| ts_path p l k : ps_path p = true -> target_shown l k -> target_shown (p :: l) ((fd_name (ps_field p), AtPath) :: k)
| ts_query p l k : ps_path p = false -> ps_query p <> "" -> target_shown l k -> target_shown (p :: l) ((fd_name (ps_field p), AtQuery (ps_query p)) :: k)
| ts_other p l k : ps_path p = false -> ps_query p = "" -> target_shown l k -> target_shown (p :: l) k.
(** what is sent as the body: the first input that is not elsewhere, or something that there is not *)
Definition sent (h : httpdef) (b : option string) : Prop :=
  In (h_method h) ["PUT"; "POST"]
    /\ ((exists p, first java_body (h_inputs h) p /\ b = Some (fd_name (ps_field p))) \/ (forall p, In p (h_inputs h) -> ~ java_body p) /\ b = Some "anonymous")
  \/ In (h_method h) ["GET"; "DELETE"] /\ b = None.
Definition answer_shown (outs : list paramspec) (a : option (option (string * jtype) * list (string * string * jtype))) : Prop :=
  outs = [] /\ a = None
  \/ outs <> [] /\ exists e hs, a = Some (e, hs)
     /\ ((exists p t, first plain_output outs p /\ by_name (param_type p) true t
            /\ e = if string_dec (jtype_text t) "void" then None else Some (fd_name (ps_field p), t))
         \/ (forall p, In p outs -> ~ plain_output p) /\ e = None)
     /\ Forall2 (fun p x => fst x = (fd_name (ps_field p), ps_header p) /\ by_name (param_type p) true (snd x)) (header_outputs outs) hs.
Definition call_shown (h : httpdef) (c : jcall) : Prop :=
  exists x, h_expected h = Some x /\ method_named h (jc_name c) (jc_class c) /\ jc_method c = h_method h /\ path_part (h_path h) (jc_path c)
  /\ (forall p, In p (h_inputs h) -> fd_name (ps_field p) <> "") /\ target_shown (h_inputs h) (jc_target c)
  /\ jc_headers c = map (fun p => (fd_name (ps_field p), ps_header p)) (header_outputs (h_inputs h))
  /\ sent h (jc_body c) /\ jc_status c = xp_status x /\ answer_shown (xp_outputs x) (jc_answer c) /\ (xp_outputs x <> [] -> h_name h <> "" /\ large_first (h_name h) (jc_built c))
  /\ jc_errors c = map (fun e => (xc_status e, xc_type e)) (h_exceptions h).
End Shown.

(** ** The launcher *)
Definition main_lines (model_import server_import service : string) (instant : bool) : list string :=
  ["";
   "import org.eclipse.jetty.server.Server;";
   "import org.glassfish.jersey.jetty.JettyHttpContainerFactory;";
   "import org.glassfish.jersey.server.ResourceConfig;";
   "import org.glassfish.jersey.logging.LoggingFeature;";
   "import org.glassfish.hk2.utilities.binding.AbstractBinder;";
   "import org.glassfish.jersey.jackson.JacksonFeature;";
   "import javax.ws.rs.core.UriBuilder;";
   "import java.io.IOException;";
   "import java.net.URI;";
   "import java.util.logging.Logger;";
   "import java.util.logging.Level;";
   model_import;
   server_import;
   "";
   "// A placeholder implementation and launcher for the service";
   "public class Main {";
   "    public static String BASE_URI = ""http://localhost:8000/"";";
   "    public static void main(String[] args) {";
   "        try {";
   "            Server server = startServer();";
   "            server.join();";
   "        } catch (Exception e) {";
   "            System.err.println(""*** "" + e);";
   "        }";
   "    }";
   "    public static Server startServer() throws Exception {";
   "        URI baseUri = UriBuilder.fromUri(BASE_URI).build();";
   "        ResourceConfig config = new ResourceConfig(" +++ service +++ "Resources.class);";
   "        config.register(new LoggingFeature(Logger.getLogger(LoggingFeature.DEFAULT_LOGGER_NAME),";
   "                                           Level.INFO, LoggingFeature.Verbosity.PAYLOAD_ANY, 10000));"]
  ++ (if instant then ["        config.register(Util.InstantConverterProvider.class);"] else [])
  ++ ["        config.registerInstances(new AbstractBinder() {";
   "                @Override";
   "                protected void configure() {";
   "                    bind(" +++ service +++ "Controller.class).to(" +++ service +++ ".class);";
   "                }";
   "            });";
   "        Server server = JettyHttpContainerFactory.createServer(baseUri, config);";
   "        server.start();";
   "        System.out.println(String.format(""Service started at %s"", BASE_URI));";
   "        return server;";
   "    }";
   "";
   "}"].

(** ** The files *)
Section Files.
Context (quote : string -> string) (int_text : Z -> string) (dec_text : decimal -> string).
Context (immutable instants service_exception impl : bool) (header model_package server_package client_package name : string) (sch : schema).
Definition imported (pkg : string) : string := if string_dec pkg "" then "" else "import " +++ pkg +++ ".*;".
Definition root_of : string := if string_dec (sc_base sch) "" then "/" else sc_base sch.
(** is there a use of an Instant in the server *)
Definition uses_instant : Prop := exists h n r, In h (sc_http sch) /\ resource_names h n r /\ use_asks sch instants None n r (Wants "java.time.Instant").
(** the model has a name; the other name is that of the generator *)
Definition server_shown (service : string) (rs : list jresource) : Prop :=
  sc_name sch <> "" /\ large_first (sc_name sch) service /\ (sc_http sch <> [] -> name <> "") /\ Forall2 (resource_shown (java_name sch instants) dec_text) (sc_http sch) rs.
Definition server_files (instant : bool) (service : string) (rs : list jresource) : list jout :=
  (server_package, service +++ "Resources", resources_file quote int_text immutable service_exception header server_package model_package name service root_of rs)
  :: if impl then
       [("", "Main", java_text header "" (each line (main_lines (imported model_package) (imported server_package) service instant)));
        ("", service +++ "Controller", stubs_file immutable header model_package service (map (fun r => (jr_name r, jr_class r)) rs))]
     else [].
Definition client_shown (service : string) (cs : list jcall) : Prop :=
  sc_name sch <> "" /\ large_first (sc_name sch) service /\ Forall2 (call_shown (java_name sch instants)) (sc_http sch) cs.
Definition client_files (service : string) (cs : list jcall) : list jout :=
  [(client_package, "ClientConfig", config_file header client_package);
   (client_package, service +++ "Client", client_file int_text header client_package model_package service root_of cs)].
End Files.

(** ** Does the client say what the server listens to *)
Definition listens (r : jresource) (n : string) (pl : jplace) : Prop := exists q, In q (jr_params r) /\ jp_name q = n /\ jp_place q = pl.
Definition sends (c : jcall) (n : string) (pl : jplace) : Prop :=
  In (n, pl) (jc_target c) \/ (exists k, pl = AtHeader k /\ In (n, k) (jc_headers c)) \/ pl = AtBody /\ jc_body c = Some n.
Definition answers (r : jresource) (n : string) (pl : jplace) : Prop :=
  (exists k, pl = AtHeader k /\ In (k, n) (jr_headers r)) \/ pl = AtBody /\ exists b, jr_entity r = Some (n, b).
Definition awaits (c : jcall) (n : string) (pl : jplace) : Prop :=
  exists e hs, jc_answer c = Some (e, hs) /\ ((exists k t, pl = AtHeader k /\ In (n, k, t) hs) \/ pl = AtBody /\ exists t, e = Some (n, t)).
Definition one_place (p : paramspec) : Prop := (ps_path p = true -> ps_query p = "" /\ ps_header p = "") /\ (ps_query p <> "" -> ps_header p = "").
(** exactly one input is the body of a PUT or POST; none is the body of anything else *)
Definition one_body (h : httpdef) : Prop :=
  (In (h_method h) ["PUT"; "POST"] -> exists p, In p (h_inputs h) /\ java_body p /\ forall q, In q (h_inputs h) -> java_body q -> fd_name (ps_field q) = fd_name (ps_field p))
  /\ (~ In (h_method h) ["PUT"; "POST"] -> forall p, In p (h_inputs h) -> ~ java_body p).
(** the names that stand for nothing, and the type that does *)
Definition answer_plain (by_name : string -> bool -> jtype -> Prop) (h : httpdef) : Prop :=
  forall x p t, h_expected h = Some x -> first plain_output (xp_outputs x) p -> by_name (param_type p) true t ->
  (In (fd_name (ps_field p)) [""; "void"] <-> jtype_text t = "void").
