__pycache__/
*.pyc
.lia.cache
.nia.cache
.csdp.cache
*.vo
*.vok
*.vos
*.glob
*.aux
rocq/Makefile
rocq/Makefile.conf
rocq/.Makefile.d
