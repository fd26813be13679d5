(** The configuration files delivered with the program, conf/sps.conf,
    conf/srt.conf and conf/https.conf, byte for byte. *)
From Verif Require Import Base M_Text M_Conf.

(** conf/sps.conf, lines 1-93. *)
Definition sps_conf : list Z := str "comment core;

upstream u1 {
    server 127.0.0.1:8080;
    keepalive 80;
}

upstream u2 {
    server 127.0.0.1:80;
    keepalive 80;
}

upstream github {
    server github.com:80;
    keepalive 80;
}

globalhost {

    host www.github.com {
        enabled    on;
        pass_proxy github; # upstream address
        pass_url   ~;  # todo
        role       proxy;     #  proxy for upstream
        type       proxy;       #  rtmp/flv/hls/stream
    }

    host flv.com {
        enabled    on;
        pass_proxy flv; # upstream address
        pass_url   ~;  # todo
        role       proxy;     #  proxy for upstream
        type       stream;        #  rtmp/flv/hls/stream
        edge_avformat flv; #  upstream rtmp
    }

    host 127.0.0.1 {
        enabled  on;
        avformat rtmp;
        role     source;      #  push as source
        type     stream;        #  rtmp/flv/hls/stream
        edge_avformat all;
    }

    host localhost {
        enabled  on;
        avformat rtmp;
        pass_proxy 127.0.0.1;
        role     edge;      #  push as source
        type     stream;      #  rtmp/flv/hls/stream
        edge_avformat all;
    }
}

http {

    server tcp80 {
        listen_port      80;
        transport        tcp;
        server_name      default;
        recv_timeout     10000000;
        send_timeout     10000000;

        host github80.com {
            pass_proxy github.com:80;
            role       proxy;
            type       proxy;      #
        }
    }

    server tcp8000 {
        listen_port      8000;
        transport        tcp;
        server_name      default;
        recv_timeout     10000000;
        send_timeout     10000000;

        host github8000.com3 {
            pass_proxy github.com3:80;
            role       proxy;
        }
    }
}

rtmp {
    server tcp1935 {
        listen_port      1935;
        transport        tcp;
        server_name      default;
        send_timeout     10000000;
        recv_timeout     10000000;
    }
}
".

(** conf/srt.conf, lines 1-72. *)
Definition srt_conf : list Z := str "comment core;

upstream u1 {
    server 127.0.0.1:8080;
    keepalive 80;
}

upstream u2 {
    server 127.0.0.1:80;
    keepalive 80;
}

globalhost {

    host www.github.com {
        enabled    on;
        pass_proxy github.com:80; # upstream address
        pass_url   ~;  # todo
        role       proxy;     #  proxy for upstream
    }

    host flv.com {
        enabled    on;
        pass_proxy flv; # upstream address
        pass_url   ~;  # todo
        role       proxy;     #  proxy for upstream
        type       stream;        #  rtmp/flv/hls/stream
        edge_avformat flv; #  upstream rtmp
    }

    host 127.0.0.1 {
        enabled  on;
        avformat rtmp;
        role     source;      #  push as source
        type     stream;        #  rtmp/flv/hls/stream
        edge_avformat all;
    }
}

http {
    server srt8001 {
        listen_port      8001;
        transport        srt;
        server_name      default;

        host github8001.com {
            role       proxy;
            pass_proxy www.baidu.com:80;
        }
    }
}

rtmp {
    server srt1935 {
        listen_port      1935;
        transport        srt;
        server_name      default;
        send_timeout     10000000;
        recv_timeout     10000000;
    }

}

srt {
    server srt6000 {
        listen_port      6000;
        transport        srt;
        server_name      default;
        recv_timeout     10000000;
        send_timeout     10000000;
    }
}".

(** conf/https.conf, lines 1-64. *)
Definition https_conf : list Z := str "comment core;

upstream u1 {
    server 127.0.0.1:8080;
    keepalive 80;
}

upstream u2 {
    server 127.0.0.1:80;
    keepalive 80;
}

globalhost {

    host www.github.com {
        enabled    on;
        pass_proxy github.com:80; # upstream address
        pass_url   ~;  # todo
        role       proxy;     #  proxy for upstream
        type       proxy;       #  rtmp/flv/hls/stream
    }

    host flv.com {
        enabled    on;
        pass_proxy flv; # upstream address
        pass_url   ~;  # todo
        role       proxy;     #  proxy for upstream
        type       stream;        #  rtmp/flv/hls/stream
        edge_avformat flv; #  upstream rtmp
    }

    host 127.0.0.1 {
        enabled  on;
        avformat rtmp;
        role     source;      #  push as source
        type     stream;        #  rtmp/flv/hls/stream
        edge_avformat all;
    }
}

http {

    server https445 {
        listen_port      445;
        transport        https;
        server_name      default;
        ssl_key_file     ./cert/key.pem;
        ssl_crt_file     ./cert/cert.pem;

        host localhost {
            role       proxy;
            pass_proxy www.baidu.com:80;
            type       proxy;
            ssl_key_file     ./cert/key.pem;
            ssl_crt_file     ./cert/cert.pem;
        }

         host www.baidu.com {
            role       proxy;
            pass_proxy www.baidu.com:80;
            type       proxy;
        }
    }
}
".
