(* NameTable.v - generated by tools/gen_names.py from wolfssh/internal.h
   (algorithm identifiers, 423-542) and src/internal.c (NameIdMap 3354-3573,
   default lists 929-1248), all optional features switched on. *)
From Verif Require Import Base.
From Coq Require Import List NArith.
Import ListNotations.
Open Scope N_scope.

(* wolfssh/internal.h 421-536 *)
Definition ID_NONE : N := 0.
Definition ID_AES128_CBC : N := 1.
Definition ID_AES192_CBC : N := 2.
Definition ID_AES256_CBC : N := 3.
Definition ID_AES128_CTR : N := 4.
Definition ID_AES192_CTR : N := 5.
Definition ID_AES256_CTR : N := 6.
Definition ID_AES128_GCM : N := 7.
Definition ID_AES192_GCM : N := 8.
Definition ID_AES256_GCM : N := 9.
Definition ID_HMAC_SHA1 : N := 10.
Definition ID_HMAC_SHA1_96 : N := 11.
Definition ID_HMAC_SHA2_256 : N := 12.
Definition ID_HMAC_SHA2_512 : N := 13.
Definition ID_DH_GROUP1_SHA1 : N := 14.
Definition ID_DH_GROUP14_SHA1 : N := 15.
Definition ID_DH_GROUP14_SHA256 : N := 16.
Definition ID_DH_GROUP16_SHA512 : N := 17.
Definition ID_DH_GEX_SHA256 : N := 18.
Definition ID_ECDH_SHA2_NISTP256 : N := 19.
Definition ID_ECDH_SHA2_NISTP384 : N := 20.
Definition ID_ECDH_SHA2_NISTP521 : N := 21.
Definition ID_NISTP256_MLKEM768_SHA256 : N := 22.
Definition ID_NISTP384_MLKEM1024_SHA384 : N := 23.
Definition ID_CURVE25519_MLKEM768_SHA256 : N := 24.
Definition ID_CURVE25519_SHA256 : N := 25.
Definition ID_CURVE25519_SHA256_LIBSSH : N := 26.
Definition ID_EXTINFO_S : N := 27.
Definition ID_EXTINFO_C : N := 28.
Definition ID_SSH_RSA : N := 29.
Definition ID_RSA_SHA2_256 : N := 30.
Definition ID_RSA_SHA2_512 : N := 31.
Definition ID_ECDSA_SHA2_NISTP256 : N := 32.
Definition ID_ECDSA_SHA2_NISTP384 : N := 33.
Definition ID_ECDSA_SHA2_NISTP521 : N := 34.
Definition ID_ED25519 : N := 35.
Definition ID_MLDSA44 : N := 36.
Definition ID_MLDSA65 : N := 37.
Definition ID_MLDSA87 : N := 38.
Definition ID_MLDSA44_ES256 : N := 39.
Definition ID_MLDSA65_ES256 : N := 40.
Definition ID_MLDSA87_ES384 : N := 41.
Definition ID_MLDSA44_ED25519 : N := 42.
Definition ID_MLDSA65_ED25519 : N := 43.
Definition ID_MLDSA87_ED448 : N := 44.
Definition ID_X509V3_SSH_RSA : N := 45.
Definition ID_X509V3_ECDSA_SHA2_NISTP256 : N := 46.
Definition ID_X509V3_ECDSA_SHA2_NISTP384 : N := 47.
Definition ID_X509V3_ECDSA_SHA2_NISTP521 : N := 48.
Definition ID_X509V3_MLDSA44 : N := 49.
Definition ID_X509V3_MLDSA65 : N := 50.
Definition ID_X509V3_MLDSA87 : N := 51.
Definition ID_OSSH_CERT_RSA : N := 52.
Definition ID_OSSH_CERT_ECDSA_SHA2_NISTP256 : N := 53.
Definition ID_OSSH_CERT_ECDSA_SHA2_NISTP384 : N := 54.
Definition ID_OSSH_CERT_ECDSA_SHA2_NISTP521 : N := 55.
Definition ID_OSSH_CERT_ED25519 : N := 56.
Definition ID_SERVICE_USERAUTH : N := 57.
Definition ID_SERVICE_CONNECTION : N := 58.
Definition ID_USERAUTH_PASSWORD : N := 59.
Definition ID_USERAUTH_PUBLICKEY : N := 60.
Definition ID_USERAUTH_KEYBOARD : N := 61.
Definition ID_CHANTYPE_SESSION : N := 62.
Definition ID_CHANTYPE_TCPIP_FORWARD : N := 63.
Definition ID_CHANTYPE_TCPIP_DIRECT : N := 64.
Definition ID_CHANTYPE_AUTH_AGENT : N := 65.
Definition ID_GLOBREQ_TCPIP_FWD : N := 66.
Definition ID_GLOBREQ_TCPIP_FWD_CANCEL : N := 67.
Definition ID_EXTINFO_SERVER_SIG_ALGS : N := 68.
Definition ID_CURVE_NISTP256 : N := 69.
Definition ID_CURVE_NISTP384 : N := 70.
Definition ID_CURVE_NISTP521 : N := 71.
Definition ID_UNKNOWN : N := 72.

(* wolfssh/internal.h 539-541 enum NameIdType *)
Definition TYPE_KEX : N := 0.
Definition TYPE_KEY : N := 1.
Definition TYPE_CIPHER : N := 2.
Definition TYPE_MAC : N := 3.
Definition TYPE_OTHER : N := 4.

(* src/internal.c:3347-3573 NameIdMap: (id, type, name) *)
Definition NameIdMap : list (N * N * bytes) := [
  (* none *) (ID_NONE, TYPE_OTHER, [110;111;110;101]);
  (* aes128-cbc *) (ID_AES128_CBC, TYPE_CIPHER, [97;101;115;49;50;56;45;99;98;99]);
  (* aes192-cbc *) (ID_AES192_CBC, TYPE_CIPHER, [97;101;115;49;57;50;45;99;98;99]);
  (* aes256-cbc *) (ID_AES256_CBC, TYPE_CIPHER, [97;101;115;50;53;54;45;99;98;99]);
  (* aes128-ctr *) (ID_AES128_CTR, TYPE_CIPHER, [97;101;115;49;50;56;45;99;116;114]);
  (* aes192-ctr *) (ID_AES192_CTR, TYPE_CIPHER, [97;101;115;49;57;50;45;99;116;114]);
  (* aes256-ctr *) (ID_AES256_CTR, TYPE_CIPHER, [97;101;115;50;53;54;45;99;116;114]);
  (* aes128-gcm@openssh.com *) (ID_AES128_GCM, TYPE_CIPHER, [97;101;115;49;50;56;45;103;99;109;64;111;112;101;110;115;115;104;46;99;111;109]);
  (* aes192-gcm@openssh.com *) (ID_AES192_GCM, TYPE_CIPHER, [97;101;115;49;57;50;45;103;99;109;64;111;112;101;110;115;115;104;46;99;111;109]);
  (* aes256-gcm@openssh.com *) (ID_AES256_GCM, TYPE_CIPHER, [97;101;115;50;53;54;45;103;99;109;64;111;112;101;110;115;115;104;46;99;111;109]);
  (* hmac-sha1 *) (ID_HMAC_SHA1, TYPE_MAC, [104;109;97;99;45;115;104;97;49]);
  (* hmac-sha1-96 *) (ID_HMAC_SHA1_96, TYPE_MAC, [104;109;97;99;45;115;104;97;49;45;57;54]);
  (* hmac-sha2-256 *) (ID_HMAC_SHA2_256, TYPE_MAC, [104;109;97;99;45;115;104;97;50;45;50;53;54]);
  (* hmac-sha2-512 *) (ID_HMAC_SHA2_512, TYPE_MAC, [104;109;97;99;45;115;104;97;50;45;53;49;50]);
  (* diffie-hellman-group1-sha1 *) (ID_DH_GROUP1_SHA1, TYPE_KEX, [100;105;102;102;105;101;45;104;101;108;108;109;97;110;45;103;114;111;117;112;49;45;115;104;97;49]);
  (* diffie-hellman-group14-sha1 *) (ID_DH_GROUP14_SHA1, TYPE_KEX, [100;105;102;102;105;101;45;104;101;108;108;109;97;110;45;103;114;111;117;112;49;52;45;115;104;97;49]);
  (* diffie-hellman-group14-sha256 *) (ID_DH_GROUP14_SHA256, TYPE_KEX, [100;105;102;102;105;101;45;104;101;108;108;109;97;110;45;103;114;111;117;112;49;52;45;115;104;97;50;53;54]);
  (* diffie-hellman-group16-sha512 *) (ID_DH_GROUP16_SHA512, TYPE_KEX, [100;105;102;102;105;101;45;104;101;108;108;109;97;110;45;103;114;111;117;112;49;54;45;115;104;97;53;49;50]);
  (* diffie-hellman-group-exchange-sha256 *) (ID_DH_GEX_SHA256, TYPE_KEX, [100;105;102;102;105;101;45;104;101;108;108;109;97;110;45;103;114;111;117;112;45;101;120;99;104;97;110;103;101;45;115;104;97;50;53;54]);
  (* ecdh-sha2-nistp256 *) (ID_ECDH_SHA2_NISTP256, TYPE_KEX, [101;99;100;104;45;115;104;97;50;45;110;105;115;116;112;50;53;54]);
  (* ecdh-sha2-nistp384 *) (ID_ECDH_SHA2_NISTP384, TYPE_KEX, [101;99;100;104;45;115;104;97;50;45;110;105;115;116;112;51;56;52]);
  (* ecdh-sha2-nistp521 *) (ID_ECDH_SHA2_NISTP521, TYPE_KEX, [101;99;100;104;45;115;104;97;50;45;110;105;115;116;112;53;50;49]);
  (* mlkem768nistp256-sha256 *) (ID_NISTP256_MLKEM768_SHA256, TYPE_KEX, [109;108;107;101;109;55;54;56;110;105;115;116;112;50;53;54;45;115;104;97;50;53;54]);
  (* mlkem1024nistp384-sha384 *) (ID_NISTP384_MLKEM1024_SHA384, TYPE_KEX, [109;108;107;101;109;49;48;50;52;110;105;115;116;112;51;56;52;45;115;104;97;51;56;52]);
  (* mlkem768x25519-sha256 *) (ID_CURVE25519_MLKEM768_SHA256, TYPE_KEX, [109;108;107;101;109;55;54;56;120;50;53;53;49;57;45;115;104;97;50;53;54]);
  (* curve25519-sha256 *) (ID_CURVE25519_SHA256, TYPE_KEX, [99;117;114;118;101;50;53;53;49;57;45;115;104;97;50;53;54]);
  (* curve25519-sha256@libssh.org *) (ID_CURVE25519_SHA256_LIBSSH, TYPE_KEX, [99;117;114;118;101;50;53;53;49;57;45;115;104;97;50;53;54;64;108;105;98;115;115;104;46;111;114;103]);
  (* ext-info-s *) (ID_EXTINFO_S, TYPE_OTHER, [101;120;116;45;105;110;102;111;45;115]);
  (* ext-info-c *) (ID_EXTINFO_C, TYPE_OTHER, [101;120;116;45;105;110;102;111;45;99]);
  (* ssh-rsa *) (ID_SSH_RSA, TYPE_KEY, [115;115;104;45;114;115;97]);
  (* rsa-sha2-256 *) (ID_RSA_SHA2_256, TYPE_KEY, [114;115;97;45;115;104;97;50;45;50;53;54]);
  (* rsa-sha2-512 *) (ID_RSA_SHA2_512, TYPE_KEY, [114;115;97;45;115;104;97;50;45;53;49;50]);
  (* ecdsa-sha2-nistp256 *) (ID_ECDSA_SHA2_NISTP256, TYPE_KEY, [101;99;100;115;97;45;115;104;97;50;45;110;105;115;116;112;50;53;54]);
  (* ecdsa-sha2-nistp384 *) (ID_ECDSA_SHA2_NISTP384, TYPE_KEY, [101;99;100;115;97;45;115;104;97;50;45;110;105;115;116;112;51;56;52]);
  (* ecdsa-sha2-nistp521 *) (ID_ECDSA_SHA2_NISTP521, TYPE_KEY, [101;99;100;115;97;45;115;104;97;50;45;110;105;115;116;112;53;50;49]);
  (* ssh-ed25519 *) (ID_ED25519, TYPE_KEY, [115;115;104;45;101;100;50;53;53;49;57]);
  (* ssh-mldsa-44 *) (ID_MLDSA44, TYPE_KEY, [115;115;104;45;109;108;100;115;97;45;52;52]);
  (* ssh-mldsa44-es256@wolfssl.com *) (ID_MLDSA44_ES256, TYPE_KEY, [115;115;104;45;109;108;100;115;97;52;52;45;101;115;50;53;54;64;119;111;108;102;115;115;108;46;99;111;109]);
  (* ssh-mldsa65-es256@wolfssl.com *) (ID_MLDSA65_ES256, TYPE_KEY, [115;115;104;45;109;108;100;115;97;54;53;45;101;115;50;53;54;64;119;111;108;102;115;115;108;46;99;111;109]);
  (* ssh-mldsa87-es384@wolfssl.com *) (ID_MLDSA87_ES384, TYPE_KEY, [115;115;104;45;109;108;100;115;97;56;55;45;101;115;51;56;52;64;119;111;108;102;115;115;108;46;99;111;109]);
  (* ssh-mldsa44-ed25519@openssh.com *) (ID_MLDSA44_ED25519, TYPE_KEY, [115;115;104;45;109;108;100;115;97;52;52;45;101;100;50;53;53;49;57;64;111;112;101;110;115;115;104;46;99;111;109]);
  (* ssh-mldsa65-ed25519@wolfssl.com *) (ID_MLDSA65_ED25519, TYPE_KEY, [115;115;104;45;109;108;100;115;97;54;53;45;101;100;50;53;53;49;57;64;119;111;108;102;115;115;108;46;99;111;109]);
  (* ssh-mldsa87-ed448@wolfssl.com *) (ID_MLDSA87_ED448, TYPE_KEY, [115;115;104;45;109;108;100;115;97;56;55;45;101;100;52;52;56;64;119;111;108;102;115;115;108;46;99;111;109]);
  (* ssh-mldsa-65 *) (ID_MLDSA65, TYPE_KEY, [115;115;104;45;109;108;100;115;97;45;54;53]);
  (* ssh-mldsa-87 *) (ID_MLDSA87, TYPE_KEY, [115;115;104;45;109;108;100;115;97;45;56;55]);
  (* x509v3-ssh-mldsa-44 *) (ID_X509V3_MLDSA44, TYPE_KEY, [120;53;48;57;118;51;45;115;115;104;45;109;108;100;115;97;45;52;52]);
  (* x509v3-ssh-mldsa-65 *) (ID_X509V3_MLDSA65, TYPE_KEY, [120;53;48;57;118;51;45;115;115;104;45;109;108;100;115;97;45;54;53]);
  (* x509v3-ssh-mldsa-87 *) (ID_X509V3_MLDSA87, TYPE_KEY, [120;53;48;57;118;51;45;115;115;104;45;109;108;100;115;97;45;56;55]);
  (* x509v3-ssh-rsa *) (ID_X509V3_SSH_RSA, TYPE_KEY, [120;53;48;57;118;51;45;115;115;104;45;114;115;97]);
  (* x509v3-ecdsa-sha2-nistp256 *) (ID_X509V3_ECDSA_SHA2_NISTP256, TYPE_KEY, [120;53;48;57;118;51;45;101;99;100;115;97;45;115;104;97;50;45;110;105;115;116;112;50;53;54]);
  (* x509v3-ecdsa-sha2-nistp384 *) (ID_X509V3_ECDSA_SHA2_NISTP384, TYPE_KEY, [120;53;48;57;118;51;45;101;99;100;115;97;45;115;104;97;50;45;110;105;115;116;112;51;56;52]);
  (* x509v3-ecdsa-sha2-nistp521 *) (ID_X509V3_ECDSA_SHA2_NISTP521, TYPE_KEY, [120;53;48;57;118;51;45;101;99;100;115;97;45;115;104;97;50;45;110;105;115;116;112;53;50;49]);
  (* ssh-rsa-cert-v01@openssh.com *) (ID_OSSH_CERT_RSA, TYPE_KEY, [115;115;104;45;114;115;97;45;99;101;114;116;45;118;48;49;64;111;112;101;110;115;115;104;46;99;111;109]);
  (* rsa-sha2-256-cert-v01@openssh.com *) (ID_OSSH_CERT_RSA, TYPE_KEY, [114;115;97;45;115;104;97;50;45;50;53;54;45;99;101;114;116;45;118;48;49;64;111;112;101;110;115;115;104;46;99;111;109]);
  (* rsa-sha2-512-cert-v01@openssh.com *) (ID_OSSH_CERT_RSA, TYPE_KEY, [114;115;97;45;115;104;97;50;45;53;49;50;45;99;101;114;116;45;118;48;49;64;111;112;101;110;115;115;104;46;99;111;109]);
  (* ecdsa-sha2-nistp256-cert-v01@openssh.com *) (ID_OSSH_CERT_ECDSA_SHA2_NISTP256, TYPE_KEY, [101;99;100;115;97;45;115;104;97;50;45;110;105;115;116;112;50;53;54;45;99;101;114;116;45;118;48;49;64;111;112;101;110;115;115;104;46;99;111;109]);
  (* ecdsa-sha2-nistp384-cert-v01@openssh.com *) (ID_OSSH_CERT_ECDSA_SHA2_NISTP384, TYPE_KEY, [101;99;100;115;97;45;115;104;97;50;45;110;105;115;116;112;51;56;52;45;99;101;114;116;45;118;48;49;64;111;112;101;110;115;115;104;46;99;111;109]);
  (* ecdsa-sha2-nistp521-cert-v01@openssh.com *) (ID_OSSH_CERT_ECDSA_SHA2_NISTP521, TYPE_KEY, [101;99;100;115;97;45;115;104;97;50;45;110;105;115;116;112;53;50;49;45;99;101;114;116;45;118;48;49;64;111;112;101;110;115;115;104;46;99;111;109]);
  (* ssh-ed25519-cert-v01@openssh.com *) (ID_OSSH_CERT_ED25519, TYPE_KEY, [115;115;104;45;101;100;50;53;53;49;57;45;99;101;114;116;45;118;48;49;64;111;112;101;110;115;115;104;46;99;111;109]);
  (* ssh-userauth *) (ID_SERVICE_USERAUTH, TYPE_OTHER, [115;115;104;45;117;115;101;114;97;117;116;104]);
  (* ssh-connection *) (ID_SERVICE_CONNECTION, TYPE_OTHER, [115;115;104;45;99;111;110;110;101;99;116;105;111;110]);
  (* password *) (ID_USERAUTH_PASSWORD, TYPE_OTHER, [112;97;115;115;119;111;114;100]);
  (* publickey *) (ID_USERAUTH_PUBLICKEY, TYPE_OTHER, [112;117;98;108;105;99;107;101;121]);
  (* keyboard-interactive *) (ID_USERAUTH_KEYBOARD, TYPE_OTHER, [107;101;121;98;111;97;114;100;45;105;110;116;101;114;97;99;116;105;118;101]);
  (* session *) (ID_CHANTYPE_SESSION, TYPE_OTHER, [115;101;115;115;105;111;110]);
  (* forwarded-tcpip *) (ID_CHANTYPE_TCPIP_FORWARD, TYPE_OTHER, [102;111;114;119;97;114;100;101;100;45;116;99;112;105;112]);
  (* direct-tcpip *) (ID_CHANTYPE_TCPIP_DIRECT, TYPE_OTHER, [100;105;114;101;99;116;45;116;99;112;105;112]);
  (* auth-agent@openssh.com *) (ID_CHANTYPE_AUTH_AGENT, TYPE_OTHER, [97;117;116;104;45;97;103;101;110;116;64;111;112;101;110;115;115;104;46;99;111;109]);
  (* tcpip-forward *) (ID_GLOBREQ_TCPIP_FWD, TYPE_OTHER, [116;99;112;105;112;45;102;111;114;119;97;114;100]);
  (* cancel-tcpip-forward *) (ID_GLOBREQ_TCPIP_FWD_CANCEL, TYPE_OTHER, [99;97;110;99;101;108;45;116;99;112;105;112;45;102;111;114;119;97;114;100]);
  (* server-sig-algs *) (ID_EXTINFO_SERVER_SIG_ALGS, TYPE_OTHER, [115;101;114;118;101;114;45;115;105;103;45;97;108;103;115]);
  (* nistp256 *) (ID_CURVE_NISTP256, TYPE_OTHER, [110;105;115;116;112;50;53;54]);
  (* nistp384 *) (ID_CURVE_NISTP384, TYPE_OTHER, [110;105;115;116;112;51;56;52]);
  (* nistp521 *) (ID_CURVE_NISTP521, TYPE_OTHER, [110;105;115;116;112;53;50;49])
].

(* src/internal.c:929 cannedKexAlgoNames = "mlkem768x25519-sha256,mlkem1024nistp384-sha384,mlkem768nistp256-sha256,curve25519-sha256,curve25519-sha256@libssh.org,ecdh-sha2-nistp521,ecdh-sha2-nistp384,ecdh-sha2-nistp256,diffie-hellman-group14-sha256,diffie-hellman-group16-sha512,diffie-hellman-group-exchange-sha256," *)
Definition cannedKexAlgoNames : bytes := [109;108;107;101;109;55;54;56;120;50;53;53;49;57;45;115;104;97;50;53;54;44;109;108;107;101;109;49;48;50;52;110;105;115;116;112;51;56;52;45;115;104;97;51;56;52;44;109;108;107;101;109;55;54;56;110;105;115;116;112;50;53;54;45;115;104;97;50;53;54;44;99;117;114;118;101;50;53;53;49;57;45;115;104;97;50;53;54;44;99;117;114;118;101;50;53;53;49;57;45;115;104;97;50;53;54;64;108;105;98;115;115;104;46;111;114;103;44;101;99;100;104;45;115;104;97;50;45;110;105;115;116;112;53;50;49;44;101;99;100;104;45;115;104;97;50;45;110;105;115;116;112;51;56;52;44;101;99;100;104;45;115;104;97;50;45;110;105;115;116;112;50;53;54;44;100;105;102;102;105;101;45;104;101;108;108;109;97;110;45;103;114;111;117;112;49;52;45;115;104;97;50;53;54;44;100;105;102;102;105;101;45;104;101;108;108;109;97;110;45;103;114;111;117;112;49;54;45;115;104;97;53;49;50;44;100;105;102;102;105;101;45;104;101;108;108;109;97;110;45;103;114;111;117;112;45;101;120;99;104;97;110;103;101;45;115;104;97;50;53;54;44].

(* src/internal.c:1033 cannedKeyAlgoNames = "ssh-mldsa87-ed448@wolfssl.com,ssh-mldsa87-es384@wolfssl.com,ssh-mldsa65-ed25519@wolfssl.com,ssh-mldsa65-es256@wolfssl.com,ssh-mldsa44-ed25519@openssh.com,ssh-mldsa44-es256@wolfssl.com,ssh-mldsa-87,ssh-mldsa-65,ssh-mldsa-44,x509v3-ssh-mldsa-87,x509v3-ssh-mldsa-65,x509v3-ssh-mldsa-44,ssh-ed25519,rsa-sha2-256,rsa-sha2-512,ecdsa-sha2-nistp256,ecdsa-sha2-nistp384,ecdsa-sha2-nistp521,x509v3-ecdsa-sha2-nistp256,ssh-ed25519-cert-v01@openssh.com,ecdsa-sha2-nistp256-cert-v01@openssh.com,ecdsa-sha2-nistp384-cert-v01@openssh.com,ecdsa-sha2-nistp521-cert-v01@openssh.com,ssh-rsa-cert-v01@openssh.com,rsa-sha2-256-cert-v01@openssh.com,rsa-sha2-512-cert-v01@openssh.com," *)
Definition cannedKeyAlgoNames : bytes := [115;115;104;45;109;108;100;115;97;56;55;45;101;100;52;52;56;64;119;111;108;102;115;115;108;46;99;111;109;44;115;115;104;45;109;108;100;115;97;56;55;45;101;115;51;56;52;64;119;111;108;102;115;115;108;46;99;111;109;44;115;115;104;45;109;108;100;115;97;54;53;45;101;100;50;53;53;49;57;64;119;111;108;102;115;115;108;46;99;111;109;44;115;115;104;45;109;108;100;115;97;54;53;45;101;115;50;53;54;64;119;111;108;102;115;115;108;46;99;111;109;44;115;115;104;45;109;108;100;115;97;52;52;45;101;100;50;53;53;49;57;64;111;112;101;110;115;115;104;46;99;111;109;44;115;115;104;45;109;108;100;115;97;52;52;45;101;115;50;53;54;64;119;111;108;102;115;115;108;46;99;111;109;44;115;115;104;45;109;108;100;115;97;45;56;55;44;115;115;104;45;109;108;100;115;97;45;54;53;44;115;115;104;45;109;108;100;115;97;45;52;52;44;120;53;48;57;118;51;45;115;115;104;45;109;108;100;115;97;45;56;55;44;120;53;48;57;118;51;45;115;115;104;45;109;108;100;115;97;45;54;53;44;120;53;48;57;118;51;45;115;115;104;45;109;108;100;115;97;45;52;52;44;115;115;104;45;101;100;50;53;53;49;57;44;114;115;97;45;115;104;97;50;45;50;53;54;44;114;115;97;45;115;104;97;50;45;53;49;50;44;101;99;100;115;97;45;115;104;97;50;45;110;105;115;116;112;50;53;54;44;101;99;100;115;97;45;115;104;97;50;45;110;105;115;116;112;51;56;52;44;101;99;100;115;97;45;115;104;97;50;45;110;105;115;116;112;53;50;49;44;120;53;48;57;118;51;45;101;99;100;115;97;45;115;104;97;50;45;110;105;115;116;112;50;53;54;44;115;115;104;45;101;100;50;53;53;49;57;45;99;101;114;116;45;118;48;49;64;111;112;101;110;115;115;104;46;99;111;109;44;101;99;100;115;97;45;115;104;97;50;45;110;105;115;116;112;50;53;54;45;99;101;114;116;45;118;48;49;64;111;112;101;110;115;115;104;46;99;111;109;44;101;99;100;115;97;45;115;104;97;50;45;110;105;115;116;112;51;56;52;45;99;101;114;116;45;118;48;49;64;111;112;101;110;115;115;104;46;99;111;109;44;101;99;100;115;97;45;115;104;97;50;45;110;105;115;116;112;53;50;49;45;99;101;114;116;45;118;48;49;64;111;112;101;110;115;115;104;46;99;111;109;44;115;115;104;45;114;115;97;45;99;101;114;116;45;118;48;49;64;111;112;101;110;115;115;104;46;99;111;109;44;114;115;97;45;115;104;97;50;45;50;53;54;45;99;101;114;116;45;118;48;49;64;111;112;101;110;115;115;104;46;99;111;109;44;114;115;97;45;115;104;97;50;45;53;49;50;45;99;101;114;116;45;118;48;49;64;111;112;101;110;115;115;104;46;99;111;109;44].

(* src/internal.c:1134 cannedKeyAlgoNamesHostKey = "ssh-mldsa87-ed448@wolfssl.com,ssh-mldsa87-es384@wolfssl.com,ssh-mldsa65-ed25519@wolfssl.com,ssh-mldsa65-es256@wolfssl.com,ssh-mldsa44-ed25519@openssh.com,ssh-mldsa44-es256@wolfssl.com,ssh-mldsa-87,ssh-mldsa-65,ssh-mldsa-44,x509v3-ssh-mldsa-87,x509v3-ssh-mldsa-65,x509v3-ssh-mldsa-44,ssh-ed25519,rsa-sha2-256,rsa-sha2-512,ecdsa-sha2-nistp256,ecdsa-sha2-nistp384,ecdsa-sha2-nistp521,x509v3-ecdsa-sha2-nistp256," *)
Definition cannedKeyAlgoNamesHostKey : bytes := [115;115;104;45;109;108;100;115;97;56;55;45;101;100;52;52;56;64;119;111;108;102;115;115;108;46;99;111;109;44;115;115;104;45;109;108;100;115;97;56;55;45;101;115;51;56;52;64;119;111;108;102;115;115;108;46;99;111;109;44;115;115;104;45;109;108;100;115;97;54;53;45;101;100;50;53;53;49;57;64;119;111;108;102;115;115;108;46;99;111;109;44;115;115;104;45;109;108;100;115;97;54;53;45;101;115;50;53;54;64;119;111;108;102;115;115;108;46;99;111;109;44;115;115;104;45;109;108;100;115;97;52;52;45;101;100;50;53;53;49;57;64;111;112;101;110;115;115;104;46;99;111;109;44;115;115;104;45;109;108;100;115;97;52;52;45;101;115;50;53;54;64;119;111;108;102;115;115;108;46;99;111;109;44;115;115;104;45;109;108;100;115;97;45;56;55;44;115;115;104;45;109;108;100;115;97;45;54;53;44;115;115;104;45;109;108;100;115;97;45;52;52;44;120;53;48;57;118;51;45;115;115;104;45;109;108;100;115;97;45;56;55;44;120;53;48;57;118;51;45;115;115;104;45;109;108;100;115;97;45;54;53;44;120;53;48;57;118;51;45;115;115;104;45;109;108;100;115;97;45;52;52;44;115;115;104;45;101;100;50;53;53;49;57;44;114;115;97;45;115;104;97;50;45;50;53;54;44;114;115;97;45;115;104;97;50;45;53;49;50;44;101;99;100;115;97;45;115;104;97;50;45;110;105;115;116;112;50;53;54;44;101;99;100;115;97;45;115;104;97;50;45;110;105;115;116;112;51;56;52;44;101;99;100;115;97;45;115;104;97;50;45;110;105;115;116;112;53;50;49;44;120;53;48;57;118;51;45;101;99;100;115;97;45;115;104;97;50;45;110;105;115;116;112;50;53;54;44].

(* src/internal.c:1213 cannedEncAlgoNames = "aes256-gcm@openssh.com,aes192-gcm@openssh.com,aes128-gcm@openssh.com,aes256-ctr,aes192-ctr,aes128-ctr," *)
Definition cannedEncAlgoNames : bytes := [97;101;115;50;53;54;45;103;99;109;64;111;112;101;110;115;115;104;46;99;111;109;44;97;101;115;49;57;50;45;103;99;109;64;111;112;101;110;115;115;104;46;99;111;109;44;97;101;115;49;50;56;45;103;99;109;64;111;112;101;110;115;115;104;46;99;111;109;44;97;101;115;50;53;54;45;99;116;114;44;97;101;115;49;57;50;45;99;116;114;44;97;101;115;49;50;56;45;99;116;114;44].

(* src/internal.c:1231 cannedMacAlgoNames = "hmac-sha2-256,hmac-sha2-512," *)
Definition cannedMacAlgoNames : bytes := [104;109;97;99;45;115;104;97;50;45;50;53;54;44;104;109;97;99;45;115;104;97;50;45;53;49;50;44].

(* src/internal.c:1248 cannedNoneNames = "none" *)
Definition cannedNoneNames : bytes := [110;111;110;101].
