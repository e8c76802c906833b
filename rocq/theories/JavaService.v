(** java/java_server.go, java_client.go: the Java server and client generated for a model. *)
From Verif Require Import GoStr Outcome Value Schema Model Misc Generator Golang GoServer OpenApi Java JavaModel.

(** export_java.go:15-44, 124-145: the fields only the server and the client depend on *)
Record jservice := mkJSv { sv_package : string; sv_impl : bool; sv_client_package : string }.

Section Service.
Context (dec_text : decimal -> string) (m : model) (o : jopts) (sv : jservice) (fuel : nat).
Notation name_of := (type_name dec_text m o fuel None).
(** generator.go:81-100, export_java.go:175-183: a panic of a function of the template comes out as an error *)
Definition from_piece (name : string) (content : piece) (pkg : string) (st : jstate) : result unit jstate :=
  if js_err st then Ok st
  else match content with
  | Ok (s, e) => Ok (write_java o name s pkg (happens st e))
  | OutOfFuel => OutOfFuel
  | _ => Ok (happen st JError)
  end.
Definition model_import : string := if jo_model_package o =?s "" then "" else "import " +++ jo_model_package o +++ ".*;".
(** java_server.go:109-111: [sadl.Uncapitalize] *)
Definition impl_name (base : string) : result unit string := u <- go_uncapitalize base ;; Ok (u +++ "Controller").
Definition root_path : string := if sc_base (m_schema m) =?s "" then "/" else sc_base (m_schema m).

(** java_server.go:205-216 *)
Definition default_anno (v : value) : result unit string :=
  match v with
  | VNil => Ok ""
  | VPStr s => Ok ("@DefaultValue(" +++ go_quote s +++ ") ")
  | VDec d => Ok ("@DefaultValue(" +++ go_quote (dec_text d) +++ ") ")
  | VBool b => Ok ("@DefaultValue(""" +++ (if b then "true" else "false") +++ """) ")
  | _ => Panic
  end.
(** java_server.go:194-217: one parameter *)
Definition resource_param (p : paramspec) : piece :=
  let n := fd_name (ps_field p) in
  t <- name_of (ts_type (fd_spec (ps_field p))) false ;;
  let param := jn_text t +++ " " +++ n in
  let param := if negb (ps_query p =?s "") then "@QueryParam(""" +++ ps_query p +++ """) " +++ param
               else if negb (ps_header p =?s "") then "@HeaderParam(""" +++ ps_header p +++ """) " +++ param
               else if ps_path p then "@PathParam(""" +++ n +++ """) " +++ param else param in
  d <- default_anno (fd_default (ps_field p)) ;;
  Ok (d +++ param, jn_events t).
Fixpoint resource_params (ps : list paramspec) : result unit (list string * list jevent) :=
  match ps with
  | [] => Ok ([], [])
  | p :: r => '(s, e) <- resource_param p ;; '(l, es) <- resource_params r ;; Ok (s :: l, e ++ es)
  end.
(** java_server.go:191-222 *)
Definition resource_sig (h : httpdef) : piece :=
  n <- action_name h ;; '(l, e) <- resource_params (h_inputs h) ;;
  Ok ("public Response " +++ n +++ "(" +++ join ", " l +++ ")", e).

(** java_server.go:491-499 *)
Definition json_wrapper (etype v : string) : string * list jevent :=
  if etype =?s "String" then ("Util.toJson(" +++ v +++ ")", [JUtil]) else (v, []).
(** java_server.go:251-256 *)
Fixpoint header_calls (ps : list paramspec) : result unit string :=
  match ps with
  | [] => Ok ""
  | p :: r =>
      s <- (if ps_header p =?s "" then Ok ""
            else c <- go_capitalize (fd_name (ps_field p)) ;; Ok (".header(""" +++ ps_header p +++ """, res.get" +++ c +++ "())")) ;;
      rest <- header_calls r ;; Ok (s +++ rest)
  end.
(** java_server.go:264-302: with one exception class for all; [first]: no branch has been written *)
Fixpoint entity_tests (first : bool) (xs : list exceptionspec) : result unit (string * list jevent * bool * bool) :=
  match xs with
  | [] => Ok ("", [], false, false)
  | x :: r =>
      t <- name_of (xc_type x) true ;;
      if jn_text t =?s "ServiceException" then
        '(s, e, any, null) <- entity_tests first r ;; Ok (s, jn_events t ++ e, any, null)
      else
        let gone := ((xc_status x =? 204) || (xc_status x =? 304))%Z%bool in
        '(s, e, _, null) <- entity_tests false r ;;
        Ok ((if first then "            if (entity instanceof " else "            } else if (entity instanceof ") +++ jn_text t +++ ") {" +++ nl
            +++ "                status = " +++ sprint (xc_status x) +++ ";" +++ nl
            +++ (if gone then "                entity = null;" +++ nl else "") +++ s, jn_events t ++ e, true, gone || null)%bool
  end.
(** java_server.go:303-308 *)
Fixpoint catches (xs : list exceptionspec) : piece :=
  match xs with
  | [] => Ok ("", [])
  | x :: r =>
      t <- name_of (xc_type x) true ;;
      '(s, e) <- catches r ;;
      Ok ("        } catch (" +++ jn_text t +++ " e) {" +++ nl
          +++ "                throw new WebApplicationException(Response.status(" +++ sprint (xc_status x) +++ ").entity(e).build());" +++ nl +++ s, jn_events t ++ e)
  end.
Definition handle_errors (h : httpdef) : piece :=
  if jo_service_exception o then
    '(s, e, any, null) <- entity_tests true (h_exceptions h) ;;
    Ok ("        } catch (ServiceException se) {" +++ nl
        +++ "            Object entity = se.entity == null? se : se.entity;" +++ nl
        +++ "            int status = 500;" +++ nl
        +++ s
        +++ (if any then "            }" +++ nl else "")
        +++ (if null then "            if (entity == null) {" +++ nl
                          +++ "                throw new WebApplicationException(status);" +++ nl
                          +++ "            }" +++ nl else "")
        +++ "            throw new WebApplicationException(Response.status(status).entity(entity).build());" +++ nl, e)
  else catches (h_exceptions h).
(** java_server.go:243-263 *)
Definition answer_call (n res impl ename etype : string) (x : expectedspec) : piece :=
  match xp_outputs x with
  | [] => Ok ("            " +++ impl +++ "." +++ n +++ "(req);" +++ nl
              +++ "            return Response.status(" +++ sprint (xp_status x) +++ ").build();" +++ nl, [])
  | _ =>
      '(wrapped, e2) <- (if ((ename =?s "void") || (ename =?s ""))%bool then Ok ("", [])
                         else if jo_immutable o then c <- go_capitalize ename ;; Ok (json_wrapper etype ("res.get" +++ c +++ "()"))
                         else Ok (json_wrapper etype ("res." +++ ename))) ;;
      hs <- header_calls (xp_outputs x) ;;
      Ok ("            " +++ res +++ " res = " +++ impl +++ "." +++ n +++ "(req);" +++ nl
          +++ "            return Response.status(" +++ sprint (xp_status x) +++ ")" +++ hs
          +++ (if wrapped =?s "" then "" else ".entity(" +++ wrapped +++ ")") +++ ".build();" +++ nl, e2)
  end.
(** java_server.go:223-318 *)
Definition resource_body (h : httpdef) : piece :=
  n <- action_name h ;; req <- request_type n ;; res <- response_type n ;;
  '(ename, etype, e1) <- entity_type dec_text m o fuel h ;;
  match h_expected h with
  | None => Panic
  | Some x =>
      impl <- impl_name (jo_name o) ;;
      let head := "        " +++ req +++ " req = " +++ (if jo_immutable o then req +++ ".builder()" else "new " +++ req +++ "()")
        +++ fold_right (fun p acc => "." +++ fd_name (ps_field p) +++ "(" +++ fd_name (ps_field p) +++ ")" +++ acc) "" (h_inputs h)
        +++ (if jo_immutable o then ".build()" else "") +++ ";" +++ nl +++ "        try {" +++ nl in
      '(call, e2) <-
        answer_call n res impl ename etype x ;;
      '(errs, e3) <- handle_errors h ;;
      Ok (head +++ call +++ errs +++ "        } catch (Throwable th) {" +++ nl +++ "            return Response.status(500).build();" +++ nl +++ "        }" +++ nl,
          e1 ++ e2 ++ e3)
  end.
(** java_server.go:388-397; methodPath is golang_server.go's, [route_path] *)
Definition resource (h : httpdef) : piece :=
  '(sig, e) <- resource_sig h ;; '(body, e') <- resource_body h ;;
  Ok (nl +++ "    " +++ nl +++ "    @" +++ h_method h +++ nl +++ "    @Path(""" +++ route_path h +++ """)" +++ nl
      +++ "    @Produces(MediaType.APPLICATION_JSON)" +++ nl +++ "    " +++ sig +++ " {" +++ nl +++ body +++ "    }" +++ nl, e ++ e').
(** java_server.go:370-401; there are no extra resources *)
Definition resources_text (service : string) : piece :=
  impl <- impl_name service ;;
  '(body, e) <- pieces resource (sc_http (m_schema m)) ;;
  Ok (nl +++ model_import +++ nl +++ "import java.util.*;" +++ nl +++ "import java.time.Instant;" +++ nl +++ "import javax.inject.Inject;" +++ nl
      +++ "import javax.ws.rs.*;" +++ nl +++ "import javax.ws.rs.core.*;" +++ nl +++ "import static javax.ws.rs.core.Response.Status;" +++ nl
      +++ "import com.fasterxml.jackson.annotation.JsonInclude;" +++ nl +++ "import com.fasterxml.jackson.annotation.JsonInclude.Include;" +++ nl
      +++ "import com.fasterxml.jackson.databind.ObjectMapper;" +++ nl +++ "import com.fasterxml.jackson.databind.SerializationFeature;" +++ nl
      +++ "import com.fasterxml.jackson.databind.DeserializationFeature;" +++ nl +++ nl
      +++ "@Path(""" +++ root_path +++ """)" +++ nl +++ "public class " +++ service +++ "Resources {" +++ nl +++ "    @Inject" +++ nl
      +++ "    private " +++ service +++ " " +++ impl +++ ";" +++ nl +++ body +++ nl +++ nl +++ "}" +++ nl, e).
(** java_server.go:324-368: the launcher; [Interfaces] is never set, so it passes no implementation on *)
Definition main_text (service : string) (instant : bool) : string :=
  join nl [
    "";
    "import org.eclipse.jetty.server.Server;";
    "import org.glassfish.jersey.jetty.JettyHttpContainerFactory;";
    "import org.glassfish.jersey.server.ResourceConfig;";
    "import org.glassfish.jersey.logging.LoggingFeature;";
    "import org.glassfish.hk2.utilities.binding.AbstractBinder;";
    "import org.glassfish.jersey.jackson.JacksonFeature;";
    "import javax.ws.rs.core.UriBuilder;";
    "import java.io.IOException;";
    "import java.net.URI;";
    "import java.util.logging.Logger;";
    "import java.util.logging.Level;";
    model_import;
    (if sv_package sv =?s "" then "" else "import " +++ sv_package sv +++ ".*;");
    "";
    "// A placeholder implementation and launcher for the service";
    "public class Main {";
    "    public static String BASE_URI = ""http://localhost:8000/"";";
    "    public static void main(String[] args) {";
    "        try {";
    "            Server server = startServer();";
    "            server.join();";
    "        } catch (Exception e) {";
    "            System.err.println(""*** "" + e);";
    "        }";
    "    }";
    "    public static Server startServer() throws Exception {";
    "        URI baseUri = UriBuilder.fromUri(BASE_URI).build();";
    "        ResourceConfig config = new ResourceConfig(" +++ service +++ "Resources.class);";
    "        config.register(new LoggingFeature(Logger.getLogger(LoggingFeature.DEFAULT_LOGGER_NAME),";
    "                                           Level.INFO, LoggingFeature.Verbosity.PAYLOAD_ANY, 10000));";
    "        " +++ (if instant then "config.register(Util.InstantConverterProvider.class);" +++ nl +++ "        " else "")
      +++ "config.registerInstances(new AbstractBinder() {";
    "                @Override";
    "                protected void configure() {";
    "                    bind(" +++ service +++ "Controller.class).to(" +++ service +++ ".class);";
    "                }";
    "            });";
    "        Server server = JettyHttpContainerFactory.createServer(baseUri, config);";
    "        server.start();";
    "        System.out.println(String.format(""Service started at %s"", BASE_URI));";
    "        return server;";
    "    }";
    "";
    "}";
    ""].
(** java_server.go:175-182, 403-414 *)
Definition stub (h : httpdef) : piece :=
  s <- handler_sig h ;; n <- action_name h ;; res <- response_type n ;;
  Ok (nl +++ "    " +++ s +++ " {" +++ nl +++ "        return " +++ (if jo_immutable o then res +++ ".builder().build()" else "new " +++ res +++ "()")
      +++ "; //implement me!" +++ nl +++ "    }" +++ nl, []).
Definition stubs_text (service : string) : piece :=
  '(body, e) <- pieces stub (sc_http (m_schema m)) ;;
  Ok (nl +++ "// Stubs for an implementation of the service follow" +++ nl +++ model_import +++ nl +++ nl
      +++ "public class " +++ service +++ "Controller implements " +++ service +++ " {" +++ nl +++ body +++ nl +++ "}" +++ nl, e).
(** java_server.go:41-53, 72-102 *)
Definition create_server (st : jstate) : result unit jstate :=
  if js_err st then Ok st
  else if sc_name (m_schema m) =?s "" then Panic
  else
    service <- go_capitalize (sc_name (m_schema m)) ;;
    st1 <- from_piece (service +++ "Resources") (resources_text service) (sv_package sv) st ;;
    if sv_impl sv then
      st2 <- from_piece "Main" (Ok (main_text service (js_instant st1), [])) "" st1 ;;
      from_piece (service +++ "Controller") (stubs_text service) "" st2
    else Ok st1.

(** java_client.go:65-72, 134-140: the headers of the answer *)
Fixpoint read_headers (ps : list paramspec) : piece :=
  match ps with
  | [] => Ok ("", [])
  | p :: r =>
      '(s, e) <- (if ps_header p =?s "" then Ok ("", [])
                  else
                    t <- name_of (ts_type (fd_spec (ps_field p))) true ;;
                    let v := "response.getHeaderString(""" +++ ps_header p +++ """)" in
                    Ok ("            " +++ jn_text t +++ " " +++ fd_name (ps_field p) +++ " = " +++ (if jn_text t =?s "Instant" then "Instant.parse(" +++ v +++ ")" else v) +++ ";" +++ nl,
                        jn_events t)) ;;
      '(rest, es) <- read_headers r ;; Ok (s +++ rest, e ++ es)
  end.
Definition get_call (n : string) : result unit string := c <- go_capitalize n ;; Ok ("req.get" +++ c +++ "()").
(** java_client.go:99-106 *)
Fixpoint target_calls (ps : list paramspec) : result unit string :=
  match ps with
  | [] => Ok ""
  | p :: r =>
      src <- get_call (fd_name (ps_field p)) ;;
      let s := if ps_path p then nl +++ "            .resolveTemplate(""" +++ fd_name (ps_field p) +++ """, " +++ src +++ ", true)"
               else if ps_query p =?s "" then "" else nl +++ "            .queryParam(""" +++ ps_query p +++ """, " +++ src +++ ")" in
      rest <- target_calls r ;; Ok (s +++ rest)
  end.
(** java_client.go:108-113 *)
Fixpoint request_headers (ps : list paramspec) : result unit string :=
  match ps with
  | [] => Ok ""
  | p :: r =>
      s <- (if ps_header p =?s "" then Ok ""
            else src <- get_call (fd_name (ps_field p)) ;; Ok (nl +++ "            .header(""" +++ ps_header p +++ """, " +++ src +++ ")")) ;;
      rest <- request_headers r ;; Ok (s +++ rest)
  end.
(** java_client.go:114-123 *)
Definition sent_call (h : httpdef) : result unit string :=
  if str_mem (h_method h) ["PUT"; "POST"] then
    '(ename, _) <- action_info h ;; src <- get_call ename ;; Ok ("Entity.entity(" +++ src +++ ", MediaType.APPLICATION_JSON)")
  else if str_mem (h_method h) ["GET"; "DELETE"] then Ok "" else Panic.
(** java_client.go:126-153 *)
Definition answer_read (h : httpdef) (x : expectedspec) : piece :=
  match xp_outputs x with
  | [] => Ok ("            return null; //shoudn't this be void?!" +++ nl, [])
  | outs =>
      '(ename, etype, e1) <- entity_type dec_text m o fuel h ;;
      '(heads, e2) <- read_headers outs ;;
      res <- response_type (h_name h) ;;
      Ok ((if etype =?s "void" then "" else "            " +++ etype +++ " " +++ ename +++ " = response.readEntity(" +++ etype +++ ".class);" +++ nl)
          +++ heads +++ "            return " +++ res +++ ".builder()" +++ nl
          +++ (if etype =?s "void" then "" else "                ." +++ ename +++ "(" +++ ename +++ ")" +++ nl)
          +++ fold_right (fun p acc => (if ps_header p =?s "" then ""
                                        else "                ." +++ fd_name (ps_field p) +++ "(" +++ fd_name (ps_field p) +++ ")" +++ nl) +++ acc) "" outs
          +++ "                .build();" +++ nl, e1 ++ e2)
  end.
(** java_client.go:94-162; what strings.Split gives first is what is in front of the first question mark *)
Definition client_body (h : httpdef) : piece :=
  targets <- target_calls (h_inputs h) ;;
  headers <- request_headers (h_inputs h) ;;
  sent <- sent_call h ;;
  match h_expected h with
  | None => Panic
  | Some x =>
      '(answer, e) <- answer_read h x ;;
      Ok ("        WebTarget target = client.target(config.getTarget()).path(""" +++ route_path h +++ """)" +++ targets
          +++ ";" +++ nl +++ "        Invocation.Builder inv = target.request(MediaType.APPLICATION_JSON)" +++ headers
          +++ ";" +++ nl +++ "        Response response = inv." +++ to_lower (h_method h) +++ "(" +++ sent +++ ");" +++ nl
          +++ "        switch (response.getStatus()) {" +++ nl +++ "        case " +++ sprint (xp_status x) +++ ":" +++ nl
          +++ answer
          +++ fold_right (fun c acc => "        case " +++ sprint (xc_status c) +++ ":" +++ nl
                                       +++ "            throw response.readEntity(" +++ xc_type c +++ ".class);" +++ nl +++ acc) "" (h_exceptions h)
          +++ "        default:" +++ nl
          +++ "            throw new RuntimeException(""Unexpected service response status: "" + response.getStatus());" +++ nl
          +++ "        }" +++ nl, e)
  end.
Definition client_method (h : httpdef) : piece :=
  s <- handler_sig h ;; '(body, e) <- client_body h ;; Ok (nl +++ "    " +++ s +++ " {" +++ nl +++ body +++ "    }" +++ nl, e).
(** java_client.go:185-209 *)
Definition client_text (service : string) : piece :=
  '(body, e) <- pieces client_method (sc_http (m_schema m)) ;;
  Ok (nl +++ model_import +++ nl +++ "import java.time.Instant;" +++ nl +++ "import javax.ws.rs.client.Client;" +++ nl
      +++ "import javax.ws.rs.client.ClientBuilder;" +++ nl +++ "import javax.ws.rs.client.Entity;" +++ nl +++ "import javax.ws.rs.client.WebTarget;" +++ nl
      +++ "import javax.ws.rs.client.Invocation;" +++ nl +++ "import javax.ws.rs.core.MediaType;" +++ nl +++ "import javax.ws.rs.core.Response;" +++ nl
      +++ "import javax.ws.rs.WebApplicationException;" +++ nl +++ nl
      +++ "public class " +++ service +++ "Client implements " +++ service +++ " {" +++ nl
      +++ "    private static Client client = ClientBuilder.newClient();" +++ nl
      +++ "    private static final String base = """ +++ root_path +++ """;" +++ nl
      +++ "    private ClientConfig config;" +++ nl +++ nl
      +++ "    public " +++ service +++ "Client(ClientConfig conf) {" +++ nl +++ "        config = conf;" +++ nl +++ "    }" +++ nl
      +++ body +++ nl +++ "}" +++ nl, e).
(** java_client.go:179-183 *)
Definition config_text : string := nl +++ "public interface ClientConfig {" +++ nl +++ "    public String getTarget();" +++ nl +++ "}" +++ nl.
(** java_client.go:25-54, 167-177 *)
Definition create_client (st : jstate) : result unit jstate :=
  if js_err st then Ok st
  else
    service <- go_capitalize (sc_name (m_schema m)) ;;
    from_piece (service +++ "Client") (client_text service) (sv_client_package sv) (write_java o "ClientConfig" config_text (sv_client_package sv) st).
End Service.
