(** java/export_java.go, java_pom.go: the configuration of the Java generator and the whole export. *)
From Verif Require Import GoStr Outcome Value Data Schema Model Misc Generator Golang OpenApi Java JavaModel JavaService.

(** export_java.go:15-44: the generator as configured.  UseGetters is set (121) but nothing reads it; ResourceDir is only passed on
    to functions that do not use it (java_server.go:42-47, java_client.go:26-31). *)
Record jsetup := mkSU {
  su_domain : string; su_source : string; su_options : jopts; su_service : jservice;
  su_model : bool; su_server : bool; su_client : bool; su_maven : bool }.
(** export_java.go:97-146; [host] is what defaultDomain (62-71) takes from the environment.  The directories (148-157) are made
    without an error. *)
Definition java_setup (host : string) (sch : schema) (conf : data) : jsetup :=
  let d := d_string conf ["domain"; "-"] in
  let domain := if d =?s "" then (if sc_namespace sch =?s "" then host else default_package (sc_namespace sch)) else d in
  let p := config_string conf "package" "" in
  let pkg := if p =?s "" then default_package domain else p in
  let model := config_bool conf "model" true in
  let server := config_bool conf "server" false in
  let client := config_bool conf "client" false in
  mkSU domain (config_string conf "source" "src/main/java")
    (mkJO (capitalize (config_string conf "name" (sc_name sch))) pkg
       (if model then config_string conf "model-package" (pkg +++ ".model") else "")
       (config_string conf "header" ("//" +++ nl +++ "// Generated by sadl" +++ nl +++ "//" +++ nl))
       (config_bool conf "lombok" false) (config_bool conf "immutable" true) (config_bool conf "instants" true)
       (config_bool conf "json" false) (config_bool conf "service-exception" false))
    (mkJSv (if server then config_string conf "server-package" (pkg +++ ".server") else "")
       (if server then config_bool conf "example-implementation" false else false)
       (if client then config_string conf "client-package" (pkg +++ ".client") else ""))
    model server client (config_bool conf "maven" false).

(** java_pom.go:55-103 *)
Definition jersey_version : string := join nl [
    "    <jersey.version>2.28</jersey.version>                                                                          "].
Definition jersey_depends_mgt : string := join nl [
    "  <dependencyManagement>";
    "    <dependencies>";
    "      <dependency>";
    "        <groupId>org.glassfish.jersey</groupId>";
    "        <artifactId>jersey-bom</artifactId>";
    "        <version>${jersey.version}</version>";
    "        <type>pom</type>";
    "        <scope>import</scope>";
    "      </dependency>";
    "    </dependencies>";
    "  </dependencyManagement>";
    ""].
Definition jersey_depends : string := join nl [
    "    <dependency>";
    "      <groupId>org.glassfish.jersey.containers</groupId>";
    "      <artifactId>jersey-container-jetty-http</artifactId>";
    "    </dependency>";
    "    <dependency>";
    "      <groupId>org.glassfish.jersey.inject</groupId>";
    "      <artifactId>jersey-hk2</artifactId>";
    "    </dependency>";
    "    <dependency>";
    "      <groupId>org.glassfish.jersey.media</groupId>";
    "      <artifactId>jersey-media-json-jackson</artifactId>";
    "    </dependency>";
    "    <dependency>";
    "      <groupId>org.glassfish.jersey.core</groupId>";
    "      <artifactId>jersey-common</artifactId>";
    "    </dependency>";
    "<!-- the following is needed to compile with java11 -->";
    "    <dependency>";
    "      <groupId>javax.activation</groupId>";
    "      <artifactId>activation</artifactId>";
    "      <version>1.1</version>";
    "    </dependency>";
    "    <dependency>";
    "      <groupId>javax.xml.bind</groupId>";
    "      <artifactId>jaxb-api</artifactId>";
    "      <version>2.3.0</version>";
    "    </dependency>";
    ""].
Definition lombok_depends : string := join nl [
    "      <dependency>";
    "        <groupId>org.projectlombok</groupId>";
    "        <artifactId>lombok</artifactId>";
    "        <version>1.18.6</version>";
    "        <scope>provided</scope>";
    "      </dependency>";
    ""].
(** java_pom.go:105-159; text/template inserts the values as they are *)
Definition pom_text (domain name depends : string) : string := join nl [
    "<project xmlns=""http://maven.apache.org/POM/4.0.0"" xmlns:xsi=""http://www.w3.org/2001/XMLSchema-instance""";
    "         xsi:schemaLocation=""http://maven.apache.org/POM/4.0.0 http://maven.apache.org/maven-v4_0_0.xsd"">";
    "";
    "  <modelVersion>4.0.0</modelVersion>";
    "  ";
    "  <groupId>" +++ domain +++ "</groupId>";
    "  <artifactId>" +++ name +++ "</artifactId>";
    "  <packaging>jar</packaging>";
    "  <version>1.0-SNAPSHOT</version>";
    "  <name>" +++ name +++ "</name>";
    "";
    jersey_depends_mgt;
    "  <dependencies>";
    depends;
    "  </dependencies>";
    "  ";
    "  <build>";
    "    <plugins>";
    "      <plugin>";
    "        <groupId>org.apache.maven.plugins</groupId>";
    "        <artifactId>maven-compiler-plugin</artifactId>";
    "        <version>2.5.1</version>";
    "        <inherited>true</inherited>";
    "        <configuration>";
    "          <source>1.8</source>";
    "          <target>1.8</target>";
    "        </configuration>";
    "      </plugin>";
    "      <plugin>";
    "        <groupId>org.codehaus.mojo</groupId>";
    "        <artifactId>exec-maven-plugin</artifactId>";
    "        <version>1.2.1</version>";
    "        <executions>";
    "          <execution>";
    "            <goals>";
    "              <goal>java</goal>";
    "            </goals>";
    "          </execution>";
    "        </executions>";
    "        <configuration>";
    "          <mainClass>${my.mainClass}</mainClass>";
    "        </configuration>";
    "      </plugin>";
    "    </plugins>";
    "  </build>";
    "  ";
    "  <properties>";
    "    <my.mainClass>Main</my.mainClass>";
    "    <project.build.sourceEncoding>UTF-8</project.build.sourceEncoding>";
    jersey_version;
    "  </properties>";
    "</project>";
    ""].
(** java_pom.go:9-40 with no extra dependencies; [None]: nothing is written *)
Definition create_pom (su : jsetup) (st : jstate) : option string :=
  if js_err st then None
  else Some (pom_text (su_domain su) (jo_name (su_options su)) (jersey_depends +++ (if jo_lombok (su_options su) then lombok_depends else ""))).

(** export_java.go:46-60: the Java files, and pom.xml; [js_err]: the error returned *)
Definition java_export (dec_text : decimal -> string) (m : model) (su : jsetup) (fuel : nat) (ord : list string -> list string) : result unit (jstate * option string) :=
  let o := su_options su in
  st1 <- (if su_model su then create_model dec_text m o fuel ord start else Ok start) ;;
  st2 <- (if su_server su then create_server dec_text m o (su_service su) fuel st1 else Ok st1) ;;
  st3 <- (if su_client su then create_client dec_text m o (su_service su) fuel st2 else Ok st2) ;;
  Ok (st3, if su_maven su then create_pom su st3 else None).

(** export_java.go:166-171: where a Java file goes *)
Definition java_path (outdir source : string) (f : jfile) : string :=
  let dir := path_join [outdir; source] in
  path_join [if jf_package f =?s "" then dir else path_join [dir; package_to_path (jf_package f)]; jf_name f +++ ".java"].
(** export_java.go:159-173 for a list of files, one after the other; [i]: how the operating system answers *)
Definition store_files (force : bool) (outdir source : string) (i : io) (fs : list jfile) (g : gstate) : gstate :=
  fold_left (fun g f => write_guarded force (java_path outdir source f) (jf_text f) i g) fs g.
